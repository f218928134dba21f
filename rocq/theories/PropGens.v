(** Properties C27-C30, C79-C81: the width of a generator, and the generators
    XOR, kiss, superkiss, uvag and /dev/random. *)
From Verif Require Import GensSpec GensLemmas StreamLemmas PropStream.
Open Scope N_scope.

(** C27: after selecting a generator with maximum [max], rmax_bits is its number
    of significant bits and rmax_mask covers exactly these. *)
Theorem C27_width : forall max, max < 2 ^ 32 -> exists bits,
  measure_rmax max = Ok (bits, 2 ^ bits - 1) /\ is_width max bits.
Proof.
  intros max H. exists (N.size max). rewrite measure_rmax_ok. unfold w32. rewrite N.mod_small by exact H.
  split; [reflexivity|apply size_width].
Qed.
Example C27_ex : measure_rmax 2147483646 = Ok (31, 2147483647) /\ measure_rmax (2 ^ 32 - 1) = Ok (32, 2 ^ 32 - 1)
  /\ measure_rmax 32768 = Ok (16, 65535).
Proof. repeat split; vm_compute; reflexivity. Qed.
Print Assumptions C27_width.

(** C28: what the XOR generator delivers, for every number [gv] >= 2 of
    generators given on the command line and every component: the n-th output
    uses two successive draws of the first component. *)
Theorem C28_actual : forall gen gv n, (2 <= gv)%nat ->
  exists p, draws (XOR_get gen gv) n (fun _ => 0%nat)
    = Ok (map (fun k => xor_all (gen 1%nat (2 * k)%nat mod 2 ^ 32 :: gen 1%nat (2 * k + 1)%nat mod 2 ^ 32 ::
                                  map (fun i => gen i k mod 2 ^ 32) (seq 2 (gv - 2)))) (seq 0 n), p).
Proof. intros gen gv n H. apply (XOR_draws gen gv H n 0 (fun _ => 0%nat)); auto. Qed.
(** So the claim is false: for every output where the first component does not
    happen to satisfy g(k) = g(2k) xor g(2k+1), the result is not the exclusive
    or of one draw of each. *)
Theorem C28_refuted : forall gen gv k, (2 <= gv)%nat ->
  gen 1%nat k mod 2 ^ 32 <> N.lxor (gen 1%nat (2 * k)%nat mod 2 ^ 32) (gen 1%nat (2 * k + 1)%nat mod 2 ^ 32) ->
  exists vs p, draws (XOR_get gen gv) (S k) (fun _ => 0%nat) = Ok (vs, p) /\
    nth k vs 0 <> xor_all (map (fun i => gen i k mod 2 ^ 32) (seq 1 (gv - 1))).
Proof.
  intros gen gv k H Hne. destruct (C28_actual gen gv (S k) H) as (p & E). eexists. exists p. split; [exact E|].
  set (f := fun k0 => xor_all _). rewrite (nth_indep _ 0 (f 0%nat)) by (rewrite map_length, seq_length; lia).
  rewrite map_nth, seq_nth by lia. cbn [Nat.add]. unfold f. clear f E p.
  replace (gv - 1)%nat with (S (gv - 2)) by lia. cbn [seq map xor_all fold_right].
  set (r := fold_right N.lxor 0 _). intro E. apply Hne.
  assert (C : forall a b c d, N.lxor a (N.lxor b d) = N.lxor c d -> c = N.lxor a b).
  { clear. intros a b c d E. apply N.bits_inj. intro i. apply (f_equal (fun x => N.testbit x i)) in E.
    rewrite !N.lxor_spec in E. rewrite N.lxor_spec.
    destruct (N.testbit a i), (N.testbit b i), (N.testbit c i), (N.testbit d i); cbn in *; congruence. }
  exact (C _ _ _ _ E).
Qed.
(** With a single component whose outputs come in equal pairs nothing is left of
    it, and with no component at all (only the XOR generator itself on the
    command line) the program uses a generator that was never allocated. *)
Theorem C28_alone_refuted : forall gen p, XOR_get gen 1 p = UB "generator never allocated".
Proof. reflexivity. Qed.
Example C28_ex : exists p, draws (XOR_get (fun i n => N.of_nat (i * 100 + n)) 3) 3 (fun _ => 0%nat)
    = Ok ([N.lxor (N.lxor 100 101) 200; N.lxor (N.lxor 102 103) 201; N.lxor (N.lxor 104 105) 202], p).
Proof. eexists. vm_compute. reflexivity. Qed.
Print Assumptions C28_refuted.

(** C29: generators that stay within their declared maximum, 2^32 - 1. *)
Theorem C29_XOR : forall gen gv n vs p, draws (XOR_get gen gv) n (fun _ => 0%nat) = Ok (vs, p) ->
  Forall (fun v => v <= 2 ^ 32 - 1) vs.
Proof.
  intros gen gv n vs p H. destruct (Nat.le_gt_cases 2 gv) as [G|G].
  - destruct (C28_actual gen gv n G) as (p' & E). rewrite E in H. apply (f_equal (fun x => match x with Ok (l, _) => l | _ => [] end)) in H. rewrite <- H.
    rewrite Forall_map. apply Forall_forall. intros k _.
    apply lt_max. apply xor_all_lt. repeat (constructor; [apply N.mod_lt; discriminate|]).
    apply Forall_forall. intros v Hv. apply in_map_iff in Hv. destruct Hv as (i & <- & _). apply N.mod_lt. discriminate.
  - destruct n as [|n]; [injection H as <- _; constructor|]. cbn [draws] in H.
    unfold XOR_get, xor_component in H. rewrite (proj2 (Nat.ltb_ge 1 gv)) in H by lia. discriminate.
Qed.
(** kiss, for every seeding generator, every seed and history. *)
Theorem C29_kiss : forall mt fuel st, kgood st -> stays_within (kiss_set mt fuel) kiss_get (2 ^ 32 - 1) st.
Proof.
  intros mt fuel st G ops vs st' H.
  refine (proj1 (run_inv (kiss_set mt fuel) kiss_get kgood _ _ _ ops st vs st' G H)).
  - intros a s b _ E. exact (kiss_set_good _ _ _ _ _ E).
  - intros a v b Ga E. destruct (kiss_get_ok a Ga) as (v' & E' & Hv). rewrite E' in E. injection E as <- <-.
    split; [apply lt_max; exact Hv|apply kiss_next_good; exact Ga].
Qed.
(** superkiss exceeds it, at the very first draw, for every seed and every
    seeding generator. *)
Theorem C29_superkiss_refuted : forall mt old s, exists v st,
  superkiss_get (superkiss_set mt old s) = Ok (v, st) /\ 2 ^ 32 - 1 < v.
Proof.
  intros mt old s. destruct (superkiss_get_ok _ (superkiss_set_good mt old s)) as (q & st' & E & _ & _ & _).
  exists (q + (69069 * 1236789 + 123) mod 2 ^ 32 + sk_shift 521288629), st'. split; [exact E|].
  change ((69069 * 1236789 + 123) mod 2 ^ 32) with 3819400940. change (sk_shift 521288629) with 1520931387.
  change (2 ^ 32) with 4294967296. lia.
Qed.
(** It never fails, and the excess is bounded: every output is below 3 * 2^32. *)
Theorem C29_superkiss_bound : forall mt old s n, exists vs st,
  draws superkiss_get n (superkiss_set mt old s) = Ok (vs, st) /\ Forall (fun v => v < 3 * 2 ^ 32) vs.
Proof.
  intros mt old s n. generalize (superkiss_set_good mt old s). generalize (superkiss_set mt old s). clear.
  induction n as [|n IH]; intros st G; cbn [draws]; [exists [], st; split; [reflexivity|constructor]|].
  destruct (superkiss_get_ok st G) as (q & st' & -> & G' & Hq & _ & Ex). cbn [bind].
  destruct (IH st' G') as (vs & st2 & -> & F). cbn [bind]. eexists. exists st2. split; [reflexivity|].
  constructor; [|exact F]. pose proof (sk_shift_lt (skxs st) (sg_x st G)).
  pose proof (N.mod_lt (69069 * skcng st + 123) (2 ^ 32) ltac:(discriminate)). lia.
Qed.
(** uvag stays within its array and within its maximum. *)
Theorem C29_uvag : forall n st, length (uvec st) = 259%nat -> Forall (fun b => b < 256) (uvec st) ->
  uindex st < 256 -> urnd st < 2 ^ 32 ->
  exists vs st', draws uvag_get n st = Ok (vs, st') /\ length vs = n /\ Forall (fun v => v <= 2 ^ 32 - 1) vs.
Proof.
  intros n st L B I R. assert (G : uvgood st) by (constructor; assumption). clear L B I R. revert st G.
  induction n as [|n IH]; intros st G; cbn [draws]; [exists [], st; repeat split; constructor|].
  destruct (uvag_get_ok st G) as (v & st' & -> & Hv & G'). cbn [bind].
  destruct (IH st' G') as (vs & st2 & -> & L & F). cbn [bind]. exists (v :: vs), st2.
  split; [reflexivity|]. split; [cbn; rewrite L; reflexivity|]. constructor; [apply lt_max; exact Hv|exact F].
Qed.
(** /dev/random: the numbers are eight bytes long. *)
Theorem C29_dev_random : forall l dev, length l = 8%nat ->
  dev_random_get (l ++ dev) = Ok (le_value l, dev).
Proof.
  intros l dev H. destruct l as [|a [|b [|c [|d [|e [|f [|g [|h [|x l]]]]]]]]]; try discriminate.
  cbn [app dev_random_get le_value fold_right]. f_equal. f_equal.
  change (2 ^ 8) with 256. change (2 ^ 16) with 65536. change (2 ^ 24) with 16777216. change (2 ^ 32) with 4294967296.
  change (2 ^ 40) with 1099511627776. change (2 ^ 48) with 281474976710656. change (2 ^ 56) with 72057594037927936. ring.
Qed.
(** They exceed the declared maximum unless four bytes in a row are zero. *)
Theorem C29_dev_random_refuted : forall l dev v, length l = 8%nat -> Forall (fun b => b < 256) l ->
  dev_random_get (l ++ dev) = Ok (v, dev) -> (2 ^ 32 - 1 < v <-> skipn 4 l <> [0; 0; 0; 0]).
Proof.
  intros l dev v H F E. rewrite C29_dev_random in E by exact H. injection E as <-.
  destruct l as [|a [|b [|c [|d [|e [|f [|g [|h [|x l]]]]]]]]]; try discriminate.
  repeat match goal with H : Forall _ (_ :: _) |- _ => inversion H; clear H; subst end.
  cbn [skipn le_value fold_right]. change (2 ^ 32) with 4294967296. split.
  - intros L E. injection E as -> -> -> ->. lia.
  - intro N0. assert (e <> 0 \/ f <> 0 \/ g <> 0 \/ h <> 0).
    { destruct (N.eq_dec e 0) as [->|]; [|tauto]. destruct (N.eq_dec f 0) as [->|]; [|tauto].
      destruct (N.eq_dec g 0) as [->|]; [|tauto]. destruct (N.eq_dec h 0) as [->|]; [|tauto]. contradiction. }
    lia.
Qed.
Example C29_ex : exists st, draws kiss_get 3 (mkK 1 2 3 4) = Ok ([591437861; 2911337254; 1771773963], st).
Proof. eexists. vm_compute. reflexivity. Qed.
Example C29_kiss_ex : kgood (mkK 1 2 3 4). Proof. constructor; try split; reflexivity. Qed.
Example C29_uvag_ex : exists st, draws uvag_get 3 (mkUV (repeat 7 259) 0 5) = Ok ([117901073; 353703214; 943208569], st).
Proof. eexists. vm_compute. reflexivity. Qed.
Print Assumptions C29_superkiss_refuted.

(** C30: reseeding kiss and superkiss. *)
Theorem C30_kiss : forall mt fuel, reproducible (kiss_set mt fuel) kiss_get.
Proof. intros mt fuel. apply reproducible_if. reflexivity. Qed.
Theorem C30_superkiss : forall mt, reproducible (fun st s => Ok (superkiss_set mt st s)) superkiss_get.
Proof. intro mt. apply reproducible_if. reflexivity. Qed.
(** uvag together with the bit buffers it is seeded through. *)
Definition uv_set mt (st : uvstate * bstate) (s : N) := uvag_set mt (snd st) (fst st) s.
Definition uv_get (st : uvstate * bstate) : outcome (N * (uvstate * bstate)) :=
  do (v, u) <- uvag_get (fst st) ;; Ok (v, (u, snd st)).
Definition uv_start : uvstate * bstate :=
  (mkUV (repeat 0 259) 0 0, reset_bit_buffers (mkB (mkU 0 0 0 0) [] 0 0 0)).
(** Seeding uvag twice in a row with the same seed gives different numbers: the
    second key starts with bits left over from the first. *)
Theorem C30_uvag_refuted : exists mt, (forall s i, mt s i < 2 ^ 32) /\
  ~ reproducible (uv_set mt) uv_get /\
  after (uv_set mt) uv_get [] 1 4 uv_start <> after (uv_set mt) uv_get [Seed 1] 1 4 uv_start.
Proof.
  set (mt := fun (s : N) (i : nat) => (s + 2654435761 * N.of_nat i) mod 2 ^ 32). exists mt.
  split; [intros; apply N.mod_lt; discriminate|].
  assert (D : after (uv_set mt) uv_get [] 1 4 uv_start <> after (uv_set mt) uv_get [Seed 1] 1 4 uv_start)
    by (vm_compute; discriminate).
  split; [|exact D]. intro R. apply D.
  destruct (run (uv_set mt) uv_get [Seed 1] uv_start) as [r| | |] eqn:E; [|exfalso; revert E; vm_compute; discriminate..].
  apply (R uv_start uv_start [] [Seed 1] 1 4%nat ([], uv_start) r); [reflexivity|exact E].
Qed.
(** With the bit buffers reset before each seeding it is reproducible, and the
    seeding always succeeds. *)
Theorem C30_uvag_reset_partial : forall mt, (forall s i, mt s i < 2 ^ 32) ->
  reproducible (fun st s => uv_set mt (fst st, reset_bit_buffers (snd st)) s) uv_get /\
  never_fails (fun st s => uv_set mt (fst st, reset_bit_buffers (snd st)) s) uv_get uv_start.
Proof.
  intros mt Hmt. split.
  - apply reproducible_if. intros a b s. unfold uv_set, uvag_set. cbn [fst snd].
    change (at_pos (reset_bit_buffers (snd a)) 0) with (at_pos (reset_bit_buffers (snd b)) 0). reflexivity.
  - assert (G0 : uvgood (fst uv_start)).
    { constructor; try reflexivity. apply Forall_forall. intros x Hx. apply repeat_spec in Hx. subst x. reflexivity. }
    revert G0. generalize uv_start. intros st0 G0.
    apply (run_ok _ _ (fun st => uvgood (fst st))); [| |exact G0].
    + intros [u b] s _. unfold uv_set, uvag_set. cbn [fst snd]. rewrite measure_rmax_ok. cbn [bind].
      change (N.size (w32 (2 ^ 32 - 1))) with 32.
      set (g := fun i => mt (w32 s) (N.to_nat i)).
      destruct (C08_get_rand_bits g (at_pos b 0) (repeat 8 256)) as (b' & E).
      { intro i. apply Hmt. }
      { intros n Hn. apply repeat_spec in Hn. subst n. discriminate. }
      assert (MR : forall n, map (fun n0 : N => (4, n0)) (repeat 8 n) = repeat (4, 8) n)
        by (induction n as [|n IHn]; [reflexivity|cbn [repeat map]; rewrite IHn; reflexivity]).
      rewrite MR in E. change (reset_bit_buffers (at_pos b 0)) with (at_pos (reset_bit_buffers b) 0) in E.
      destruct (uvag_key_bits 256 0 g 32 _ _ _ E) as (key & -> & L & K). cbn [bind].
      clear E. 
      assert (BK : bytes key).
      { apply Forall_forall. intros x Hx. apply (In_nth _ _ 0) in Hx. destruct Hx as (j & Hj & <-).
        rewrite L in Hj. rewrite K by exact Hj. destruct (Nat.eqb (0 + j) 255); [reflexivity|].
        assert (P : forall l p j, nth 0 (nth j (pieces (fun p n => le_bytes (lsb_value
            (stream_lsb (fun i => g (gpos (bu (at_pos b 0)) + i)) 32) p (N.to_nat n))) p l) []) 0 < 256).
        { induction l as [|n l IH]; intros p [|k]; cbn [pieces nth]; try reflexivity.
          - apply N.mod_lt. discriminate.
          - apply IH. }
        apply P. }
      destruct (shuffle_ok (N.to_nat ULEN) 0 key 0 0 (map (fun i => N.of_nat i mod 256) (seq 0 (N.to_nat ULEN))))
        as (v & Ev & Lv & Bv).
      { apply Nat.le_refl. }
      { rewrite map_length, seq_length. reflexivity. }
      { apply Forall_forall. intros x Hx. apply in_map_iff in Hx. destruct Hx as (j & <- & _). apply N.mod_lt. discriminate. }
      { exact L. }
      { exact BK. }
      { rewrite K by lia. reflexivity. }
      { lia. }
      { reflexivity. }
      rewrite Ev. cbn [bind]. eexists. split; [reflexivity|]. cbn [fst].
      constructor; cbn [uvec uindex urnd]; try assumption; reflexivity.
    + intros [u b] G. unfold uv_get. cbn [fst snd]. cbn [fst] in G.
      destruct (uvag_get_ok u G) as (v & u' & -> & _ & G'). cbn [bind]. eexists. eexists. split; [reflexivity|exact G'].
Qed.
Example C30_ex : after (kiss_set (fun s i => s * 7919 + N.of_nat i) 5) kiss_get [Draw; Seed 4; Draw] 12 2 (mkK 1 2 3 4)
  = after (kiss_set (fun s i => s * 7919 + N.of_nat i) 5) kiss_get [] 12 2 (mkK 9 9 9 9) /\
  exists l, after (kiss_set (fun s i => s * 7919 + N.of_nat i) 5) kiss_get [] 12 2 (mkK 9 9 9 9) = Ok l /\ length l = 2%nat.
Proof. split; [vm_compute; reflexivity|]. eexists. split; vm_compute; reflexivity. Qed.
Print Assumptions C30_uvag_reset_partial.

(** C79: kiss never degenerates.  For every seeding generator, seed and number
    of draws: the xorshift part is not 0, the multiply-with-carry part is at
    neither of its two fixed points and its 64-bit arithmetic does not
    overflow. *)
Theorem C79_alive : forall mt fuel old s st n, kiss_set mt fuel old s = Ok st ->
  exists vs st', draws kiss_get n st = Ok (vs, st') /\ length vs = n /\
    ky st' <> 0 /\ (kz st', kc st') <> (0, 0) /\ (kz st', kc st') <> (2 ^ 32 - 1, 4294584393 - 1) /\
    4294584393 * kz st' + kc st' < 2 ^ 64.
Proof.
  intros mt fuel old s st n H. apply kiss_set_good in H.
  destruct (kiss_draws n st H) as (vs & E & L & _ & G). exists vs. eexists. split; [exact E|].
  split; [exact L|]. revert G. generalize (itr kiss_next (N.of_nat n) st). clear. intros st G.
  pose proof (kgood_t st G) as [T _]. destruct G as [_ [Y0 _] Hz Hc H0 H1].
  change (2 ^ 32) with 4294967296 in *. change (2 ^ 64) with 18446744073709551616.
  split; [lia|]. split; [intro E; injection E; lia|]. split; [intro E; injection E; lia|]. lia.
Qed.
(** Its state does not come back before 2^32 * (2^32 - 1) draws. *)
Theorem C79_period : forall mt fuel old s st n m vs1 vs2 st1 st2,
  kiss_set mt fuel old s = Ok st -> (n < m)%nat ->
  draws kiss_get n st = Ok (vs1, st1) -> draws kiss_get m st = Ok (vs2, st2) -> st1 = st2 ->
  2 ^ 32 * (2 ^ 32 - 1) <= N.of_nat (m - n).
Proof.
  intros mt fuel old s st n m vs1 vs2 st1 st2 H Hnm E1 E2 E. apply kiss_set_good in H.
  destruct (kiss_draws n st H) as (u1 & E1' & _ & _ & G). rewrite E1' in E1. injection E1 as _ F1.
  destruct (kiss_draws m st H) as (u2 & E2' & _ & _ & _). rewrite E2' in E2. injection E2 as _ F2.
  apply N.divide_pos_le; [lia|]. apply (kiss_return _ _ G). rewrite <- itr_add.
  replace (N.of_nat (m - n) + N.of_nat n) with (N.of_nat m) by lia. congruence.
Qed.
Example C79_ex : kiss_set (fun s i => s * 7919 + N.of_nat i) 5 (mkK 0 0 0 0) 2 = Ok (mkK 15838 15839 15840 15842).
Proof. vm_compute. reflexivity. Qed.
Print Assumptions C79_period.

(** C80: the xorshift part of superkiss should run through all 2^32 - 1 nonzero
    words; for every seed it comes back after 306706140 draws already. *)
Theorem C80_short_refuted : forall mt old s n k, exists vs1 st1 vs2 st2,
  draws superkiss_get n (superkiss_set mt old s) = Ok (vs1, st1) /\
  draws superkiss_get (n + k) (superkiss_set mt old s) = Ok (vs2, st2) /\
  (N.of_nat k = 306706140 -> skxs st2 = skxs st1).
Proof.
  intros mt old s n k. pose proof (superkiss_set_good mt old s) as G.
  destruct (superkiss_draws n _ G) as (vs1 & st1 & E1 & _ & _ & X1 & _).
  destruct (superkiss_draws (n + k) _ G) as (vs2 & st2 & E2 & _ & _ & X2 & _).
  exists vs1, st1, vs2, st2. split; [exact E1|]. split; [exact E2|]. intro Ek.
  rewrite X1, X2, Nat2N.inj_add, Ek, itr_add.
  change (skxs (superkiss_set mt old s)) with 521288629.
  rewrite (proj2 (sk_shift_period 306706140) (N.divide_refl _)). reflexivity.
Qed.
(** Exactly then: the part is back at its start only after multiples of it. *)
Theorem C80_period : forall mt old s n vs st,
  draws superkiss_get n (superkiss_set mt old s) = Ok (vs, st) ->
  (skxs st = skxs (superkiss_set mt old s) <-> (306706140 | N.of_nat n)).
Proof.
  intros mt old s n vs st H. destruct (superkiss_draws n _ (superkiss_set_good mt old s)) as (vs1 & st1 & E1 & _ & _ & X1 & _).
  rewrite E1 in H. injection H as _ <-. rewrite X1.
  change (skxs (superkiss_set mt old s)) with 521288629. apply sk_shift_period.
Qed.
(** The congruential part keeps the state from repeating before 2^32 draws. *)
Theorem C80_no_repeat : forall mt old s n vs st,
  draws superkiss_get n (superkiss_set mt old s) = Ok (vs, st) ->
  skcng st = skcng (superkiss_set mt old s) -> (2 ^ 32 | N.of_nat n).
Proof.
  intros mt old s n vs st H E. destruct (superkiss_draws n _ (superkiss_set_good mt old s)) as (vs1 & st1 & E1 & _ & _ & _ & Y1).
  rewrite E1 in H. injection H as _ <-. rewrite Y1 in E.
  apply (lcg_period 69069 123 eq_refl eq_refl 32 _ (skcng (superkiss_set mt old s))); [reflexivity|exact E].
Qed.
Example C80_ex : itr sk_shift 3 521288629 = 1527180001. Proof. vm_compute. reflexivity. Qed.
Print Assumptions C80_short_refuted.
