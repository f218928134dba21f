(** Model of libdieharder/random_seed.c: the seed of a run without -S. *)
From Verif Require Export Base.
Open Scope Z_scope.

(** The four bytes fread stores into seed, on a little-endian machine. *)
Definition seed_of_bytes (a b c d : N) : N := (a + 256 * (b + 256 * (c + 256 * d)))%N.

(** random_seed.c:18-52 [random_seed].  [urandom]: None if /dev/urandom cannot be
    opened, otherwise the bytes it gives; the clock shows [tv_sec] and
    [tv_usec].  The return value of fread is not looked at: a short read leaves
    seed uninitialised.  (In C a partly read object keeps its other bytes,
    which are indeterminate as well.) *)
Definition random_seed (urandom : option (list N)) (tv_sec tv_usec : Z) : outcome N :=
  match urandom with
  | None => Ok (u32_of_Z (tv_sec + tv_usec))
  | Some (a :: b :: c :: d :: _) => Ok (seed_of_bytes a b c d)
  | Some _ => UB "uninitialised seed"
  end.
