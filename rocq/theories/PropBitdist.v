(** Theorems C43: the bit-distribution test. *)
From Verif Require Import BaseLemmas TallyLemmas MissingLemmas BitdistModel BitdistLemmas.
Open Scope N_scope.

(** For every stream of nb-bit values and every number of trials: cell k of the
    histogram of value i is the number of trials of 64 draws in which i was
    drawn k times. *)
Theorem C43_histograms : forall v nb tsamples c, 1 <= nb -> nb <= 31 -> (forall k, v k < 2 ^ nb) ->
  exists vt, bitdist v nb tsamples c = Ok (vt, (c + 64 * tsamples)%nat) /\ length vt = N.to_nat (2 ^ nb) /\
    forall i, i < 2 ^ nb -> length (nth (N.to_nat i) vt []) = 65%nat /\
      forall k, k <= 64 -> nth (N.to_nat k) (nth (N.to_nat i) vt []) 0%Z = Z.of_N (trials_with v 64 c tsamples i k).
Proof.
  intros v nb tsamples c N1 N31 B. unfold bitdist.
  rewrite (proj2 (N.eqb_neq nb 0)) by lia. rewrite (proj2 (N.leb_gt 32 nb)) by lia.
  destruct (bitdist_loop v (N.to_nat (2 ^ nb)) 64 ltac:(intro; rewrite N2Nat.id; apply B) tsamples tsamples c (le_n _)) as (count & vt & E & L & R).
  rewrite E. cbn [bind]. exists vt. split; [reflexivity|]. split; [exact L|].
  intros i Hi. destruct (R (N.to_nat i) ltac:(lia)) as (R1 & R2 & R3). split; [exact R1|].
  intros k Hk. unfold F in *. rewrite N2Nat.id in *. destruct (N.eq_dec k 0) as [->|K].
  - rewrite N.eqb_refl in R2. transitivity (nth 0 (nth (N.to_nat i) vt []) 0%Z); [reflexivity|]. rewrite R2. clear R R2 R3 E L. assert (trials_with v 64 c tsamples i 0 <= N.of_nat tsamples) by (unfold trials_with; etransitivity; [apply countp_le|]; rewrite seq_length; lia). lia.
  - rewrite R3 by lia. rewrite N2Nat.id, (proj2 (N.eqb_neq k 0)) by exact K. reflexivity.
Qed.

(** Sum of a function over 0, ..., n-1. *)
Fixpoint Sum (f : N -> N) (n : nat) : N := match n with O => 0 | S m => Sum f m + f (N.of_nat m) end.
Lemma Sum_ext : forall f g n, (forall k, k < N.of_nat n -> f k = g k) -> Sum f n = Sum g n.
Proof. induction n; intro H; cbn [Sum]; [reflexivity|]. rewrite IHn, H; [reflexivity|lia|]. intros; apply H; lia. Qed.
Lemma Sum_add : forall f g n, Sum (fun k => f k + g k) n = Sum f n + Sum g n.
Proof. induction n; cbn [Sum]; [reflexivity|]. rewrite IHn. lia. Qed.
Lemma Sum_single : forall h n, h < N.of_nat n -> Sum (fun k => if h =? k then 1 else 0) n = 1.
Proof.
  induction n; intro H; [lia|]. cbn [Sum]. destruct (N.eqb_spec h (N.of_nat n)) as [->|E].
  - rewrite (Sum_ext _ (fun _ => 0)); [|intros k K; rewrite (proj2 (N.eqb_neq _ _)) by lia; reflexivity].
    clear. induction n; cbn [Sum]; lia.
  - rewrite IHn; lia.
Qed.
Lemma Sum_countp : forall A (h : A -> N) l n, (forall a, In a l -> h a < N.of_nat n) ->
  Sum (fun k => countp (fun a => h a =? k) l) n = N.of_nat (length l).
Proof.
  induction l as [|a l IH]; intros n H; cbn [countp length].
  - clear. induction n; cbn [Sum]; lia.
  - rewrite Sum_add, IH by (intros; apply H; right; assumption). rewrite Sum_single by (apply H; left; reflexivity). lia.
Qed.

(** Conservation: every histogram holds exactly tsamples trials, and in every
    trial the counts of all values add up to the 64 draws. *)
Theorem C43_conservation : forall v nb tsamples c, 1 <= nb -> nb <= 31 -> (forall k, v k < 2 ^ nb) ->
  (forall vt c', bitdist v nb tsamples c = Ok (vt, c') -> forall i, i < 2 ^ nb ->
     fold_right Z.add 0%Z (nth (N.to_nat i) vt []) = Z.of_nat tsamples) /\
  (forall t, Sum (occurrences_in v 64 c t) (N.to_nat (2 ^ nb)) = 64).
Proof.
  intros v nb tsamples c N1 N31 B. split.
  - intros vt c' E i Hi. destruct (C43_histograms v nb tsamples c N1 N31 B) as (vt' & E' & L & R).
    assert (vt' = vt) by congruence. subst vt'. destruct (R i Hi) as [R1 R2].
    assert (G : forall row (f : N -> N), (forall k, (k < length row)%nat -> nth k row 0%Z = Z.of_N (f (N.of_nat k))) ->
       fold_right Z.add 0%Z row = Z.of_N (Sum f (length row))).
    { clear. intro row. induction row as [|x row IH] using rev_ind; intros f H; [reflexivity|].
      rewrite app_length, Nat.add_1_r. cbn [Sum]. rewrite fold_right_app. cbn [fold_right].
      pose proof (H (length row) ltac:(rewrite app_length; cbn; lia)) as Hx.
      rewrite app_nth2, Nat.sub_diag in Hx by lia. cbn [nth] in Hx.
      assert (Q : forall l z, fold_right Z.add z l = (fold_right Z.add 0 l + z)%Z) by (induction l; intro z; cbn [fold_right]; [lia|rewrite IHl; lia]).
      rewrite Q. rewrite (IH f); [|intros k Hk; rewrite <- (app_nth1 row [x] 0%Z Hk); apply H; rewrite app_length; lia]. lia. }
    rewrite (G _ (fun k => trials_with v 64 c tsamples i k)).
    + rewrite R1. f_equal. unfold trials_with. rewrite Sum_countp, seq_length; [lia|].
      intros t _. unfold occurrences_in. pose proof (countp_le _ (fun b => v (c + 64 * t + b)%nat =? i) (seq 0 64)) as Q. rewrite seq_length in Q. lia.
    + intros k Hk. rewrite R1 in Hk. rewrite <- (R2 (N.of_nat k)) by lia. rewrite Nat2N.id. reflexivity.
  - intro t. unfold occurrences_in. rewrite (Sum_countp _ (fun b => v (c + 64 * t + b)%nat)); [rewrite seq_length; reflexivity|].
    intros b _. rewrite N2Nat.id. apply B.
Qed.
(** Other sizes: 0 ends the program, 32 and more are undefined behaviour. *)
Theorem C43_limits : forall v tsamples c,
  bitdist v 0 tsamples c = Exit 0 /\ forall nb, 32 <= nb -> exists why, bitdist v nb tsamples c = UB why.
Proof.
  intros. split; [reflexivity|]. intros nb H. unfold bitdist. rewrite (proj2 (N.eqb_neq nb 0)) by lia. rewrite (proj2 (N.leb_le 32 nb)) by lia. eauto.
Qed.
Example C43_ex : (forall k, (N.of_nat k mod 3) < 2 ^ 2) /\
  exists vt, bitdist (fun k => N.of_nat k mod 3) 2 2 0 = Ok (vt, 128%nat) /\
  nth 22 (nth 0 vt []) 0%Z = 1%Z /\ nth 21 (nth 0 vt []) 0%Z = 1%Z /\ nth 0 (nth 3 vt []) 0%Z = 2%Z.
Proof.
  split.
  - intro k. eapply N.lt_trans; [apply N.mod_lt; discriminate|reflexivity].
  - eexists. split; [vm_compute; reflexivity|]. vm_compute. auto.
Qed.

Print Assumptions C43_histograms.
Print Assumptions C43_conservation.
Print Assumptions C43_limits.
