(** Properties C29 and C30 for the generators AES_OFB and Threefish_OFB. *)
From Verif Require Import AesModel AesSpec AesLemmas AesLemmas2 AesLemmas3 PropAes ThreefishModel ThreefishSpec PropThreefish GensSpec GensLemmas.
Open Scope N_scope.

(** Seeding in a history: both set functions clear the whole state first
    (memset in rng_aes.c:69 and rng_threefish.c:86), so the old state plays no
    role; the seed is an unsigned long. *)
Definition aes_seed (old : aes_state) (s : N) : outcome aes_state := aes_set (w64 s).
Definition tf_seed (old : tf_state) (s : N) : outcome tf_state := tf_set (w64 s).

Definition aes_good (st : aes_state) : Prop :=
  exists W rk n, (forall i, bcol (W i)) /\ good W 44 44 rk /\ PropAes.at_word W rk n st.
Lemma aes_set_good s : exists st, aes_set s = Ok st /\ aes_good st.
Proof.
  destruct (aes_key_bytes s) as [KL KB]. set (W := sched 4 (aes_key s)).
  pose proof (sched_ok 4 (aes_key s) ltac:(lia)) as S.
  assert (WB : forall i, bcol (W i)) by (apply (sched_bytes 4 (aes_key s)); (assumption || lia)).
  destruct (key_setup_ok W WB 4 (aes_key s) (repeat 0 44) (or_introl eq_refl) S KL KB eq_refl) as (rk & E & G).
  change (4 + 6)%nat with 10%nat in E. change (4 * 10 + 4)%nat with 44%nat in G. change (32 * N.of_nat 4) with 128 in E.
  assert (E0 : encrypt rk 10 (repeat 0 16) = Ok (state_block (ofb_state 10 W 1))).
  { rewrite <- (encrypt_ofb W rk WB G 0). cbn [ofb_state]. rewrite state_block_state; reflexivity. }
  unfold aes_set. rewrite E. cbn [bind]. rewrite E0. cbn [bind]. eexists. split; [reflexivity|].
  exists W, rk, 0%nat. split; [exact WB|]. split; [exact G|].
  split; [reflexivity|]. exists 0%nat, 0%nat. cbn [a_block a_pos]. repeat split; lia.
Qed.
Lemma aes_get_good st : aes_good st -> exists v st', aes_get st = Ok (v, st') /\ v <= 2 ^ 32 - 1 /\ aes_good st'.
Proof.
  intros (W & rk & n & WB & G & A). destruct (get_ofb W rk WB G n st A) as (st' & E & A').
  exists (ofb_word 10 W n), st'. split; [exact E|]. split; [apply lt_max, ofb_word_lt, WB|]. exists W, rk, (S n). auto.
Qed.
Definition tf_good (st : tf_state) : Prop := exists s n, s < 2 ^ 64 /\ PropThreefish.at_word s n st.
Lemma tf_set_good s : exists st, tf_set (w64 s) = Ok st /\ tf_good st.
Proof.
  assert (H : w64 s < 2 ^ 64) by (apply N.mod_lt; discriminate).
  destruct (set_ok _ H) as (st & E & A). exists st. split; [exact E|]. exists (w64 s), 0%nat. auto.
Qed.
Lemma feedback_word_lt s k : s < 2 ^ 64 -> feedback_word s k < 2 ^ 32.
Proof. intro S. destruct (C75_stream s 0 S) as (_ & _ & _ & _ & H). apply H. Qed.
Lemma tf_get_good st : tf_good st -> exists v st', tf_get st = Ok (v, st') /\ v <= 2 ^ 32 - 1 /\ tf_good st'.
Proof.
  intros (s & n & H & A). destruct (get_ok s n st H A) as (st' & E & A').
  exists (feedback_word s n), st'. split; [exact E|]. split; [apply lt_max, feedback_word_lt, H|]. exists s, (S n). auto.
Qed.

Lemma within_if {S} (set : S -> N -> outcome S) get (P : S -> Prop) m :
  (forall st s, exists st', set st s = Ok st' /\ P st') ->
  (forall st, P st -> exists v st', get st = Ok (v, st') /\ v <= m /\ P st') ->
  forall st, P st -> stays_within set get m st /\ never_fails set get st.
Proof.
  intros HS HG st HP. split.
  - intros ops vs st' H. refine (proj1 (run_inv set get P (fun v => v <= m) _ _ ops st vs st' HP H)).
    + intros a s b _ E. destruct (HS a s) as (b' & E' & Q). congruence.
    + intros a v b Pa E. destruct (HG a Pa) as (v' & b' & E' & V & Q). rewrite E' in E.
      assert (v' = v) by congruence. assert (b' = b) by congruence. subst. auto.
  - apply (run_ok _ _ P); auto.
    intros a Pa. destruct (HG a Pa) as (v' & b' & E' & V & Q). eauto.
Qed.

(** C29: after the seeding at allocation, every history of seedings and draws
    runs without a failure and stays within the declared maximum. *)
Theorem C29_aes : forall s0, exists st, aes_set (w64 s0) = Ok st /\
  stays_within aes_seed aes_get (2 ^ 32 - 1) st /\ never_fails aes_seed aes_get st.
Proof.
  intro s0. destruct (aes_set_good (w64 s0)) as (st & E & G). exists st. split; [exact E|].
  apply (within_if aes_seed aes_get aes_good); [intros a s; apply aes_set_good|exact aes_get_good|exact G].
Qed.
Theorem C29_threefish : forall s0, exists st, tf_set (w64 s0) = Ok st /\
  stays_within tf_seed tf_get (2 ^ 32 - 1) st /\ never_fails tf_seed tf_get st.
Proof.
  intro s0. destruct (tf_set_good s0) as (st & E & G). exists st. split; [exact E|].
  apply (within_if tf_seed tf_get tf_good); [intros a s; apply tf_set_good|exact tf_get_good|exact G].
Qed.
(** C30 *)
Theorem C30_aes : reproducible aes_seed aes_get.
Proof. apply reproducible_if. intros a b s. unfold aes_seed, tf_seed. exact eq_refl. Qed.
Theorem C30_threefish : reproducible tf_seed tf_get.
Proof. apply reproducible_if. intros a b s. unfold aes_seed, tf_seed. exact eq_refl. Qed.
Example C29_cipher_ex :
  match (do st <- aes_set 1 ;; run aes_seed aes_get [Draw; Draw; Seed 3; Draw] st) with Ok (l, _) => length l = 3%nat | _ => False end /\
  match (do st <- tf_set 1 ;; run tf_seed tf_get [Draw; Draw; Seed 3; Draw] st) with Ok (l, _) => length l = 3%nat | _ => False end.
Proof. split; vm_compute; reflexivity. Qed.
Print Assumptions C29_aes.
Print Assumptions C29_threefish.
