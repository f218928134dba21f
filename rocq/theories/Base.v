(** Common definitions: outcomes of C functions, fixed-width words, checked
    array access.  Nothing here models a particular file of /repo; it fixes
    the reading of C used by all the models. *)
From Coq Require Export String.
From Coq Require Export List Arith NArith ZArith Lia Bool.
From Coq Require Export ZifyBool ZifyNat ZifyN.
Export ListNotations.

(** Result of running a piece of C code.
    [Ok a]       it returned normally with value / final state [a];
    [Exit c]     it called exit(c);
    [UB why]     it did something the C standard leaves undefined;
    [OutOfFuel]  the bounded interpreter gave up (a theorem that concludes
                 [Ok] excludes this case). *)
Inductive outcome (A : Type) : Type :=
| Ok (a : A)
| Exit (code : Z)
| UB (why : string)
| OutOfFuel.
Arguments Ok {A} a.
Arguments Exit {A} code.
Arguments UB {A} why.
Arguments OutOfFuel {A}.

Definition bind {A B} (x : outcome A) (f : A -> outcome B) : outcome B :=
  match x with
  | Ok a => f a
  | Exit c => Exit c
  | UB w => UB w
  | OutOfFuel => OutOfFuel
  end.

Declare Scope outcome_scope.
Notation "'do' x <- e ;; f" := (bind e (fun x => f))
  (at level 200, x pattern, e at level 100, f at level 200, right associativity)
  : outcome_scope.
Open Scope outcome_scope.

(** Fixed-width unsigned arithmetic. *)
Definition w32 (x : N) : N := (x mod 2 ^ 32)%N.
Definition w64 (x : N) : N := (x mod 2 ^ 64)%N.
(** Conversion of a (mathematical) integer to [unsigned int]. *)
Definition u32_of_Z (z : Z) : N := Z.to_N (z mod 2 ^ 32)%Z.
(** Unsigned 32-bit addition and subtraction. *)
Definition add32 (a b : N) : N := w32 (a + b).
Definition sub32 (a b : N) : N := u32_of_Z (Z.of_N a - Z.of_N b).
Definition mul32 (a b : N) : N := w32 (a * b).

(** Shifts of an [unsigned int]: undefined when the count is 32 or more
    (C11 6.5.7p3). *)
Definition shl32 (x s : N) : outcome N :=
  if (s <? 32)%N then Ok (w32 (N.shiftl x s)) else UB "shift count".
Definition shr32 (x s : N) : outcome N :=
  if (s <? 32)%N then Ok (N.shiftr x s) else UB "shift count".

(** Checked array access: out of bounds is undefined behaviour. *)
Definition aget {A} (l : list A) (i : Z) : outcome A :=
  if (i <? 0)%Z then UB "array index"
  else match nth_error l (Z.to_nat i) with
       | Some a => Ok a
       | None => UB "array index"
       end.

Fixpoint set_nth {A} (l : list A) (n : nat) (a : A) : list A :=
  match l, n with
  | [], _ => []
  | _ :: t, O => a :: t
  | h :: t, S m => h :: set_nth t m a
  end.

Definition aset {A} (l : list A) (i : Z) (a : A) : outcome (list A) :=
  if (i <? 0)%Z then UB "array index"
  else if (Z.to_nat i <? length l)%nat then Ok (set_nth l (Z.to_nat i) a)
  else UB "array index".

(** Run [f] [n] times, threading a state. *)
Fixpoint iter_o {A} (n : nat) (f : A -> outcome A) (a : A) : outcome A :=
  match n with
  | O => Ok a
  | S m => do a' <- f a ;; iter_o m f a'
  end.
