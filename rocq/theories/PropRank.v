(** Properties C14 and C15: rank of bit matrices. *)
From Verif Require Import RankModel RankSpec RankLemmas.
Open Scope N_scope.

(** C14: for matrices of at most 32 columns, any number of rows and any
    content, binary_rank returns the rank: the rows (bits 0..n-1 of their first
    word) span exactly 2^rank vectors. *)
Theorem C14_binary_rank : forall mtx n,
  (forall r, In r mtx -> r <> []) -> n <= 32 ->
  exists rank, binary_rank mtx (Z.of_nat (length mtx)) (Z.of_N n) = Ok (Z.of_nat rank) /\
    (rank <= length mtx)%nat /\ (rank <= N.to_nat n)%nat /\
    is_rank (map (fun r => nth 0 r 0) mtx) n rank.
Proof. exact binary_rank_spec. Qed.
Example C14_ex : binary_rank [[6]; [10]; [12]; [19]] 4 4 = Ok 3%Z.
Proof. vm_compute. reflexivity. Qed.

(** The rank is determined by the rows. *)
Theorem C14_rank_unique : forall rows n r r', is_rank rows n r -> is_rank rows n r' -> r = r'.
Proof. exact is_rank_unique. Qed.

(** The rank tests count every sample in exactly one cell, the one of its rank
    (ranks up to lo together), inside the counter array. *)
Theorem C14_rank_tests_count : forall rows n lo counts,
  n <= 32 -> (lo <= length rows)%nat -> length counts = S (length rows) ->
  exists r, is_rank rows n r /\ (r <= length rows)%nat /\
    rank_sample (Z.of_nat (length rows)) (Z.of_N n) (Z.of_nat lo) rows counts
      = Ok (set_nth counts (Nat.max lo r) (nth (Nat.max lo r) counts 0 + 1)).
Proof. exact rank_sample_spec. Qed.
Example C14_count_ex : rank_sample 6 8 2 [1; 3; 2; 0x1FF; 0xFF; 0] [0; 0; 0; 0; 0; 0; 0]
    = Ok [0; 0; 0; 1; 0; 0; 0].
Proof. vm_compute. reflexivity. Qed.

(** C15: with more than 32 columns the result can be wrong: elimination in the
    second word is applied to the first one.  Here rows 0 and 1 are equal, so
    the rank (of all 64 columns) is 1, but the result is 2. *)
Theorem C15_wide_matrices_refuted : exists mtx rank,
  (forall r, In r mtx -> length r = 2%nat) /\
  is_rank (map (fun r => nth 0 r 0 + 2 ^ 32 * nth 1 r 0) mtx) 64 rank /\
  binary_rank mtx (Z.of_nat (length mtx)) 64 <> Ok (Z.of_nat rank).
Proof.
  exists [[0; 3]; [0; 3]], 1%nat. split.
  { intros r H. repeat (destruct H as [<-|H]; [reflexivity|]). destruct H. }
  split; [vm_compute; reflexivity|]. vm_compute. discriminate.
Qed.

Print Assumptions C14_binary_rank.
Print Assumptions C14_rank_unique.
Print Assumptions C14_rank_tests_count.
Print Assumptions C15_wide_matrices_refuted.
