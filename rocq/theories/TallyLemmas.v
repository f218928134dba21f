From Verif Require Import BaseLemmas Tally.
Open Scope N_scope.

Lemma countp_app : forall A (f : A -> bool) a b, countp f (a ++ b) = countp f a + countp f b.
Proof. induction a; intro b; cbn [countp app]; [reflexivity|]. rewrite IHa. lia. Qed.

Lemma countp_ext : forall A (f g : A -> bool) l, (forall x, In x l -> f x = g x) -> countp f l = countp g l.
Proof.
  induction l; intro H; cbn [countp]; [reflexivity|].
  rewrite (H a) by (left; reflexivity). rewrite IHl; [reflexivity|]. intros x I. apply H. right. exact I.
Qed.

Lemma countp_map : forall A B (g : A -> B) (f : B -> bool) l, countp f (map g l) = countp (fun x => f (g x)) l.
Proof. induction l; cbn [countp map]; [reflexivity|]. rewrite IHl. reflexivity. Qed.

Lemma countp_le : forall A (f : A -> bool) l, countp f l <= N.of_nat (length l).
Proof. induction l; cbn [countp length]; [lia|]. destruct (f a); lia. Qed.

Lemma countp_filter : forall A (f : A -> bool) l, countp f l = N.of_nat (length (filter f l)).
Proof. induction l; cbn [countp filter]; [reflexivity|]. rewrite IHl. destruct (f a); cbn [length]; lia. Qed.

Lemma bump_ok : forall t i, (0 <= i < Z.of_nat (length t))%Z ->
  bump t i = Ok (set_nth t (Z.to_nat i) (nth (Z.to_nat i) t 0 + 1)).
Proof.
  intros t i H. unfold bump. rewrite (aget_ok t i 0) by lia. cbn [bind]. apply aset_ok; lia.
Qed.

Lemma bump_bad : forall t i, ~ (0 <= i < Z.of_nat (length t))%Z -> exists why, bump t i = UB why.
Proof.
  intros t i H. unfold bump, aget. destruct (Z.ltb_spec i 0); [cbn; eauto|].
  destruct (nth_error t (Z.to_nat i)) eqn:E; [|cbn; eauto].
  assert (G : (Z.to_nat i < length t)%nat) by (apply nth_error_Some; congruence). exfalso. apply H. lia.
Qed.

Lemma tallies_nil : forall n, tallies (repeat 0 n) [].
Proof. intro n. split; [intros i []|]. intros k H. rewrite nth_repeat. reflexivity. Qed.

Lemma tallies_bump : forall t l i, tallies t l -> (0 <= i < Z.of_nat (length t))%Z ->
  exists t', bump t i = Ok t' /\ length t' = length t /\ tallies t' (l ++ [i]).
Proof.
  intros t l i [R C] H. rewrite bump_ok by exact H. eexists. split; [reflexivity|].
  split; [apply set_nth_length|]. split.
  - intros j I. rewrite set_nth_length. apply in_app_or in I. destruct I as [I|[<-|[]]]; auto.
  - intros k Hk. rewrite set_nth_length in Hk. rewrite countp_app. cbn [countp].
    destruct (Z.eqb_spec i (Z.of_nat k)) as [->|N].
    + rewrite Nat2Z.id, nth_set_nth_eq by lia. rewrite C by lia. lia.
    + rewrite nth_set_nth_ne by lia. rewrite C by exact Hk. lia.
Qed.

Lemma total_app : forall a b, total (a ++ b) = total a + total b.
Proof. induction a; intro b; cbn [total app]; [reflexivity|]. rewrite IHa. lia. Qed.

Lemma total_set_nth : forall l n a, (n < length l)%nat -> total (set_nth l n a) + nth n l 0 = total l + a.
Proof.
  induction l; intros n x H; cbn [length] in H; [lia|]. destruct n; cbn [set_nth total nth]; [lia|].
  specialize (IHl n x ltac:(lia)). lia.
Qed.

Lemma total_bump : forall t i t', bump t i = Ok t' -> total t' = total t + 1 /\ length t' = length t.
Proof.
  intros t i t' E. destruct (Z.ltb_spec i 0).
  - unfold bump, aget in E. replace (i <? 0)%Z with true in E by lia. discriminate.
  - destruct (Z.ltb_spec i (Z.of_nat (length t))).
    + rewrite bump_ok in E by lia. inversion E; subst t'. rewrite set_nth_length. split; [|reflexivity].
      pose proof (total_set_nth t (Z.to_nat i) (nth (Z.to_nat i) t 0 + 1) ltac:(lia)). lia.
    + destruct (bump_bad t i) as [w W]; [lia|]. congruence.
Qed.

Lemma tallies_total : forall t l, tallies t l -> total t = N.of_nat (length l).
Proof.
  intros t l. revert t. induction l as [|i l IH] using rev_ind; intros t [R C].
  - assert (G : forall k, (k < length t)%nat -> nth k t 0 = 0) by exact C. clear - G.
    induction t; cbn [total]; [reflexivity|]. pose proof (G 0%nat ltac:(cbn; lia)) as G0; cbn in G0; rewrite G0. rewrite IHt; [reflexivity|].
    intros k H. apply (G (S k)). cbn. lia.
  - assert (Hi : (0 <= i < Z.of_nat (length t))%Z) by (apply R, in_or_app; right; left; reflexivity).
    assert (Ci : nth (Z.to_nat i) t 0 = countp (fun j => (j =? Z.of_nat (Z.to_nat i))%Z) l + 1).
    { rewrite C by lia. rewrite countp_app. cbn [countp]. replace (i =? Z.of_nat (Z.to_nat i))%Z with true by lia. lia. }
    set (t0 := set_nth t (Z.to_nat i) (countp (fun j => (j =? Z.of_nat (Z.to_nat i))%Z) l)).
    assert (T : tallies t0 l).
    { split; unfold t0; rewrite set_nth_length.
      - intros j I. apply R, in_or_app. left. exact I.
      - intros k Hk. destruct (Nat.eq_dec (Z.to_nat i) k) as [<-|N].
        + rewrite nth_set_nth_eq by lia. reflexivity.
        + rewrite nth_set_nth_ne by exact N. rewrite C by exact Hk. rewrite countp_app. cbn [countp].
          replace (i =? Z.of_nat k)%Z with false by lia. lia. }
    pose proof (total_set_nth t (Z.to_nat i) (countp (fun j => (j =? Z.of_nat (Z.to_nat i))%Z) l) ltac:(lia)) as E.
    fold t0 in E. rewrite (IH t0 T), Ci in E. rewrite app_length. cbn [length]. lia.
Qed.
