(** Proofs about MissingModel.v *)
From Verif Require Export BaseLemmas BitsLemmas WordSpec NtupleLemmas MissingModel.
Open Scope N_scope.

Lemma iter_inv : forall A (f : A -> outcome A) (P : nat -> A -> Prop) n a,
  P 0%nat a -> (forall t s, (t < n)%nat -> P t s -> exists s', f s = Ok s' /\ P (S t) s') ->
  exists s, iter_o n f a = Ok s /\ P n s.
Proof.
  intros A f P n. revert P. induction n as [|n IH]; intros P a H0 H.
  - exists a. split; [reflexivity|exact H0].
  - destruct (H 0%nat a ltac:(lia) H0) as (s' & E & H1). cbn [iter_o]. rewrite E. cbn [bind].
    apply (IH (fun t => P (S t))); [exact H1|]. intros t s Ht. apply H. lia.
Qed.

(** ** Sums *)
Lemma Nsum_0 : forall f, Nsum 0 f = 0. Proof. reflexivity. Qed.
Lemma Nsum_succ : forall n f, Nsum (N.succ n) f = Nsum n f + f n.
Proof.
  intros n f. unfold Nsum. rewrite (N.recursion_succ eq); [reflexivity|reflexivity|].
  intros x y -> u v ->. reflexivity.
Qed.
Lemma Nsum_ext : forall n f h, (forall k, k < n -> f k = h k) -> Nsum n f = Nsum n h.
Proof.
  induction n using N.peano_ind; intros f h H; [reflexivity|]. rewrite !Nsum_succ.
  rewrite (IHn f h) by (intros; apply H; lia). rewrite H by lia. reflexivity.
Qed.
Lemma Nsum_plus : forall n f h, Nsum n (fun k => f k + h k) = Nsum n f + Nsum n h.
Proof. induction n using N.peano_ind; intros f h; [reflexivity|]. rewrite !Nsum_succ, IHn. lia. Qed.
Lemma Nsum_const0 : forall n, Nsum n (fun _ => 0) = 0.
Proof. induction n using N.peano_ind; [reflexivity|]. rewrite Nsum_succ, IHn. reflexivity. Qed.
Lemma Nsum_const1 : forall n, Nsum n (fun _ => 1) = n.
Proof. induction n using N.peano_ind; [reflexivity|]. rewrite Nsum_succ, IHn. lia. Qed.
Lemma Nsum_add : forall m n f, Nsum (n + m) f = Nsum n f + Nsum m (fun j => f (n + j)).
Proof.
  induction m using N.peano_ind; intros n f; [rewrite N.add_0_r, Nsum_0; lia|].
  rewrite N.add_succ_r, !Nsum_succ, IHm. lia.
Qed.
Lemma Nsum_mul : forall a b f, Nsum (a * b) f = Nsum a (fun i => Nsum b (fun j => f (i * b + j))).
Proof.
  induction a using N.peano_ind; intros b f; [reflexivity|].
  rewrite N.mul_succ_l, Nsum_add, Nsum_succ, IHa. reflexivity.
Qed.
Lemma Nsum_swap : forall a b f, Nsum a (fun i => Nsum b (fun j => f i j)) = Nsum b (fun j => Nsum a (fun i => f i j)).
Proof.
  induction a using N.peano_ind; intros b f.
  - rewrite Nsum_0. symmetry. transitivity (Nsum b (fun _ => 0)); [|apply Nsum_const0]. apply Nsum_ext. reflexivity.
  - rewrite Nsum_succ, IHa, <- Nsum_plus. apply Nsum_ext. intros k _. rewrite Nsum_succ. reflexivity.
Qed.

Lemma Nsum_one : forall n a, a < n -> Nsum n (fun k => if k =? a then 1 else 0) = 1.
Proof.
  induction n using N.peano_ind; intros a H; [lia|]. rewrite Nsum_succ.
  destruct (N.eqb_spec n a) as [->|D].
  - rewrite (Nsum_ext a _ (fun _ => 0)); [rewrite Nsum_const0; reflexivity|].
    intros k Hk. replace (k =? a) with false by lia. reflexivity.
  - rewrite IHn by lia. reflexivity.
Qed.

Lemma Nsum_members : forall l n, NoDup l -> (forall x, In x l -> x < n) ->
  Nsum n (fun k => if in_dec N.eq_dec k l then 1 else 0) = N.of_nat (length l).
Proof.
  induction l as [|a l IH]; intros n D B.
  - transitivity (Nsum n (fun _ => 0)); [|apply Nsum_const0]. apply Nsum_ext. intros k _.
    destruct (in_dec N.eq_dec k []) as [[]|_]. reflexivity.
  - inversion D as [|? ? Ha Dl]; subst.
    rewrite (Nsum_ext n _ (fun k => (if k =? a then 1 else 0) + (if in_dec N.eq_dec k l then 1 else 0))).
    + rewrite Nsum_plus, Nsum_one by (apply B; left; reflexivity).
      rewrite IH by (assumption || (intros x I; apply B; right; exact I)). cbn [length]. lia.
    + intros k _. destruct (in_dec N.eq_dec k (a :: l)) as [[->|I]|I].
      * rewrite N.eqb_refl. destruct (in_dec N.eq_dec k l); [contradiction|reflexivity].
      * destruct (N.eqb_spec k a) as [->|]; [contradiction|]. destruct (in_dec N.eq_dec k l); [reflexivity|contradiction].
      * destruct (N.eqb_spec k a) as [->|]; [elim I; left; reflexivity|].
        destruct (in_dec N.eq_dec k l); [elim I; right; assumption|reflexivity].
Qed.

(** The cells that are still zero, when the others are those named in [l]. *)
Lemma holes_count : forall n l f, (forall x, In x l -> x < n) ->
  (forall k, k < n -> (f k = 0 <-> ~ In k l)) ->
  Nsum n (fun k => hole (f k)) + distinct l = n.
Proof.
  intros n l f B H. unfold distinct.
  rewrite <- (Nsum_members (nodup N.eq_dec l) n); [|apply NoDup_nodup|intros x I; apply B; eapply nodup_In; exact I].
  rewrite <- Nsum_plus. transitivity (Nsum n (fun _ => 1)); [|apply Nsum_const1]. apply Nsum_ext. intros k Hk. unfold hole.
  specialize (H k Hk). destruct (N.eqb_spec (f k) 0) as [E|E]; destruct (in_dec N.eq_dec k (nodup N.eq_dec l)) as [I|I];
    rewrite nodup_In in I; try reflexivity; tauto.
Qed.

(** ** Groups of results *)
Lemma group_div : forall p t, (0 < p)%nat ->
  (t mod p = 0 -> (t + (p - 1)) / p = t / p /\ (t + p) / p = t / p + 1)%nat /\
  (t mod p <> 0 -> (t + (p - 1)) / p = t / p + 1 /\ (t + p) / p = t / p + 1)%nat.
Proof.
  intros p t Hp. pose proof (Nat.div_mod t p ltac:(lia)) as E. pose proof (Nat.mod_upper_bound t p ltac:(lia)) as U.
  assert (A : ((t + p) / p = t / p + 1)%nat).
  { replace (t + p)%nat with (t + 1 * p)%nat by lia. rewrite Nat.div_add by lia. reflexivity. }
  revert E U A. generalize (t / p)%nat as q, (t mod p)%nat as r. intros q r E U A. split; intro R; (split; [|exact A]).
  - symmetry. apply (Nat.div_unique _ p q (p - 1)); lia.
  - symmetry. apply (Nat.div_unique _ p (q + 1) (r - 1)); lia.
Qed.

Lemma same_group : forall p t, (0 < p)%nat -> (S t mod p <> 0 -> S t / p = t / p)%nat.
Proof.
  intros p t Hp R. pose proof (Nat.div_mod t p ltac:(lia)) as E. pose proof (Nat.mod_upper_bound t p ltac:(lia)) as U.
  symmetry. apply (Nat.div_unique (S t) p (t / p) (t mod p + 1)); [|lia].
  revert R E U. generalize (t / p)%nat as q, (t mod p)%nat as r. intros q r R E U.
  destruct (Nat.eq_dec (r + 1) p) as [F|]; [|lia]. elim R.
  rewrite E. replace (S (p * q + r))%nat with (0 + (q + 1) * p)%nat by lia. rewrite Nat.mod_add by lia.
  apply Nat.mod_0_l. lia.
Qed.

Section Generator.
Variable g : nat -> N.

(** [regs] holds the results of the group that round [t] belongs to, unless
    round t begins a new group. *)
Definition grouped (p m c t : nat) (s : wstate) : Prop :=
  w_t s = N.of_nat t /\ w_c s = (c + m * ((t + (p - 1)) / p))%nat /\
  ((t mod p <> 0)%nat -> w_regs s = fetch g m (c + m * (t / p))).

Lemma grouped_step : forall p m c t s, (0 < p)%nat -> grouped p m c t s ->
  (if w_t s mod N.of_nat p =? 0 then (fetch g m (w_c s), (w_c s + m)%nat) else (w_regs s, w_c s))
  = (fetch g m (c + m * (t / p)), (c + m * ((S t + (p - 1)) / p))%nat).
Proof.
  intros p m c t s Hp (T & C & R). rewrite T, <- Nat2N.inj_mod.
  replace (S t + (p - 1))%nat with (t + p)%nat by lia.
  destruct (group_div p t Hp) as [A B]. destruct (Nat.eq_dec (t mod p) 0) as [Z|Z].
  - destruct (A Z) as [A1 A2]. rewrite Z. cbn [N.of_nat N.eqb]. rewrite C, A1, A2. f_equal. lia.
  - destruct (B Z) as [B1 B2]. destruct (N.eqb_spec (N.of_nat (t mod p)) 0); [lia|].
    rewrite (R Z), C, B1, B2. reflexivity.
Qed.

Lemma grouped_next : forall p m c t s' T', (0 < p)%nat -> T' = N.of_nat t + 1 ->
  w_t s' = T' -> w_c s' = (c + m * ((S t + (p - 1)) / p))%nat ->
  w_regs s' = fetch g m (c + m * (t / p)) -> grouped p m c (S t) s'.
Proof.
  intros p m c t s' T' Hp -> A B C. split; [lia|]. split; [exact B|]. intro R. rewrite C.
  rewrite (same_group p t Hp R). reflexivity.
Qed.

Lemma grouped_start : forall p m n c, (0 < p)%nat -> grouped p m c 0 (wstart n c).
Proof.
  intros p m n c Hp. split; [reflexivity|]. split.
  - cbn [wstart w_c]. rewrite Nat.div_small by lia. lia.
  - intro H. elim H. apply Nat.mod_0_l. lia.
Qed.

(** ** Words and cells *)
Lemma field_land : forall x off n, N.land (N.shiftr x off) (N.ones n) = field x off n.
Proof. intros. unfold field. rewrite N.land_ones, N.shiftr_div_pow2. reflexivity. Qed.
Lemma field_lt : forall x off n, field x off n < 2 ^ n.
Proof. intros. unfold field. apply N.mod_lt. apply N.pow_nonzero. discriminate. Qed.

Definition marked (w : table) (l : list N) : Prop := forall k, w k = 0 <-> ~ In k l.
Lemma marked_nil : marked cleared [].
Proof. intro k. split; [intros _ []|reflexivity]. Qed.
Lemma marked_put : forall w l k, marked w l -> marked (put w k 1) (l ++ [k]).
Proof.
  intros w l k H j. unfold put. rewrite in_app_iff. cbn [In]. specialize (H j).
  destruct (N.eqb_spec j k) as [->|D].
  - split; [discriminate|]. intro X. elim X. right. left. reflexivity.
  - rewrite H. split; [intros A [B|[B|[]]]; [tauto|congruence]|tauto].
Qed.

Lemma times_app : forall x a b, times x (a ++ b) = times x a + times x b.
Proof. induction a; intro b; cbn [times app]; [reflexivity|]. rewrite IHa. lia. Qed.
Lemma times_0 : forall x l, times x l = 0 <-> ~ In x l.
Proof.
  induction l as [|a l IH]; cbn [times In]; [tauto|]. destruct (N.eqb_spec a x).
  - split; [lia|]. intro H. elim H. left. assumption.
  - rewrite N.add_0_l, IH. tauto.
Qed.

Definition counted (w : table) (l : list N) : Prop := forall k, w k = times k l mod 256.
Lemma counted_nil : counted cleared [].
Proof. intro k. reflexivity. Qed.
Lemma counted_put : forall w l k, counted w l -> counted (put w k (char_incr (w k))) (l ++ [k]).
Proof.
  intros w l k H j. unfold put, char_incr. rewrite times_app. cbn [times]. rewrite !H.
  destruct (N.eqb_spec j k) as [->|D].
  - rewrite N.eqb_refl, N.add_0_r. rewrite N.add_mod_idemp_l by discriminate. reflexivity.
  - replace (k =? j) with false by lia. rewrite !N.add_0_r. reflexivity.
Qed.

(** The words whose cell is not zero. *)
Definition seen (l : list N) : list N := filter (fun k => negb (times k l mod 256 =? 0)) l.
Lemma counted_holes : forall n w l, counted w l -> (forall x, In x l -> x < n) ->
  Nsum n (fun k => hole (w k)) + distinct (seen l) = n.
Proof.
  intros n w l C B. apply holes_count.
  - intros x I. apply B. unfold seen in I. rewrite filter_In in I. apply I.
  - intros k _. rewrite C. unfold seen. rewrite filter_In. split.
    + intros E [_ F]. rewrite E in F. discriminate.
    + intro F. destruct (N.eqb_spec (times k l mod 256) 0); [assumption|]. elim F. split; [|reflexivity].
      destruct (in_dec N.eq_dec k l); [assumption|]. exfalso. apply times_0 in n1. rewrite n1 in n0. apply n0. reflexivity.
Qed.

(** Without counter overflow the cells that are not zero are those named. *)
Lemma seen_all : forall l, (forall k, times k l < 256) -> seen l = l.
Proof.
  intros l H. unfold seen. assert (G : forall m, (forall x, In x m -> In x l) ->
    filter (fun k => negb (times k l mod 256 =? 0)) m = m).
  { induction m as [|a m IH]; intro I; [reflexivity|]. cbn [filter].
    rewrite N.mod_small by apply H. destruct (N.eqb_spec (times a l) 0) as [E|E].
    - apply times_0 in E. elim E. apply I. left. reflexivity.
    - cbn [negb]. f_equal. apply IH. intros x X. apply I. right. exact X. }
  apply G. auto.
Qed.
End Generator.
