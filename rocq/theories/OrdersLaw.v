(** The law of the orders of k numbers. *)
From Coq Require Import Lia Lra.
From Verif Require Export OrdersSpec.
From Verif Require Import BaseLemmas OpermReal DnaBlock RunsArcs WindowLaw CrapsLaw2 KsReals VtestLaw MissingLaw RankLawLemmas.
From Verif Require DnaLaw.
Open Scope R_scope.

Definition bl {P Q : Prop} (d : {P} + {Q}) : bool := if d then true else false.
Lemma sorted_unique : forall l m : list N, StronglySorted N.le l -> StronglySorted N.le m -> Permutation l m -> l = m.
Proof.
  induction l as [|a l IH]; intros m L M P; [now apply Permutation_nil in P|].
  destruct m as [|b m]; [apply Permutation_sym, Permutation_nil in P; discriminate|].
  apply StronglySorted_inv in L, M. destruct L as (L & FL), M as (M & FM). rewrite Forall_forall in FL, FM.
  assert (a = b).
  { assert (In a (b :: m)) by (eapply Permutation_in; [exact P|now left]). assert (In b (a :: l)) by (eapply Permutation_in; [apply Permutation_sym; exact P|now left]).
    destruct H as [<-|H]; [reflexivity|]. destruct H0 as [<-|H0]; [reflexivity|]. specialize (FM a H). specialize (FL b H0). lia. }
  subst b. f_equal. apply IH; auto. eapply Permutation_cons_inv, P.
Qed.
Definition permute (p : list nat) (l : list N) : list N := map (fun i => nth i l 0%N) p.
Lemma permute_all l : permute (seq 0 (length l)) l = l.
Proof.
  unfold permute. apply nth_ext with (d := 0%N) (d' := 0%N); [now rewrite map_length, seq_length|]. intros i I. rewrite map_length, seq_length in I.
  rewrite (nth_indep _ _ (nth (length l) l 0%N)) by now rewrite map_length, seq_length. rewrite (map_nth (fun i => nth i l 0%N)), seq_nth by exact I. reflexivity.
Qed.
Lemma permute_perm p l : Permutation p (seq 0 (length l)) -> Permutation (permute p l) l.
Proof. intro P. rewrite <- (permute_all l) at 2. now apply Permutation_map. Qed.
Lemma permute_inj p l m : Permutation p (seq 0 (length l)) -> length l = length m -> permute p l = permute p m -> l = m.
Proof.
  intros P L E. apply nth_ext with (d := 0%N) (d' := 0%N); [exact L|]. intros i I. assert (In i p) by (eapply Permutation_in; [apply Permutation_sym; exact P|]; apply in_seq; lia).
  unfold permute in E. clear -E H. induction p as [|a p IH]; [destruct H|]. cbn [map] in E. injection E as E1 E2. destruct H as [<-|H]; auto.
Qed.
Lemma indices_inj l p q : NoDup l -> (forall i, In i p -> (i < length l)%nat) -> (forall i, In i q -> (i < length l)%nat) -> permute p l = permute q l -> p = q.
Proof.
  intro ND. revert q. induction p as [|a p IH]; intros [|b q] A B E; try discriminate; [reflexivity|]. cbn [permute map] in E. injection E as E1 E2. f_equal.
  - apply (proj1 (NoDup_nth l 0%N) ND); auto; [apply A|apply B]; now left.
  - apply IH; auto; intros; [apply A|apply B]; now right.
Qed.
Fixpoint asc (l : list N) : bool := match l with [] => true | x :: r => forallb (fun y => (x <? y)%N) r && asc r end.
Lemma asc_spec l : asc l = true <-> StronglySorted N.le l /\ NoDup l.
Proof.
  induction l as [|x l IH]; cbn [asc]; [split; [split; constructor|reflexivity]|]. rewrite Bool.andb_true_iff, IH, forallb_forall. split.
  - intros (F & S & D). split; [constructor; [exact S|apply Forall_forall; intros y Y; specialize (F y Y); apply N.ltb_lt in F; lia]|]. constructor; [|exact D]. intro I. specialize (F x I). apply N.ltb_lt in F. lia.
  - intros (S & D). apply StronglySorted_inv in S. destruct S as (S & F). inversion D; subst. rewrite Forall_forall in F. split; [|auto].
    intros y Y. specialize (F y Y). apply N.ltb_lt. assert (x <> y) by (intros ->; contradiction). lia.
Qed.
Definition distinctb (l : list N) : bool := if NoDup_dec N.eq_dec l then true else false.
Lemma distinctb_spec l : distinctb l = true <-> NoDup l.
Proof. unfold distinctb. destruct (NoDup_dec N.eq_dec l); intuition discriminate. Qed.

Section Law.
Variable sort_index : list N -> list nat.
Hypothesis SI : sorts_indices sort_index.
Variable lookup : list (list nat).
Variable w : N.
Variable k : nat.
Hypothesis LP : lists_permutations k lookup.
Local Notation M := (matrices w k).
Local Notation has := (has_order sort_index).
Lemma has_spec p o : has p o = true <-> sort_index o = p.
Proof. unfold has_order. destruct (list_eq_dec Nat.eq_dec (sort_index o) p); intuition discriminate. Qed.
Lemma asc_permute p l : Permutation p (seq 0 (length l)) -> asc (permute p l) = distinctb l && has p l.
Proof.
  intro P. apply Bool.eq_iff_eq_true. rewrite asc_spec, Bool.andb_true_iff, distinctb_spec, has_spec. destruct (SI l) as (Q & S). fold (permute (sort_index l) l) in S. split.
  - intros (SP & D). assert (ND : NoDup l) by (eapply Permutation_NoDup; [apply permute_perm; exact P|exact D]). split; [exact ND|].
    apply (indices_inj l); [exact ND| | |].
    + intros i I. apply (Permutation_in _ Q), in_seq in I. lia.
    + intros i I. apply (Permutation_in _ P), in_seq in I. lia.
    + apply sorted_unique; auto. eapply perm_trans; [now apply permute_perm|]. apply Permutation_sym. now apply permute_perm.
  - intros (D & <-). split; [exact S|]. eapply Permutation_NoDup; [apply Permutation_sym, permute_perm; exact Q|exact D].
Qed.
Lemma permute_matrices p : Permutation p (seq 0 k) -> Permutation (map (permute p) M) M.
Proof.
  intro P. apply NoDup_Permutation_bis.
  - assert (G : forall L, (forall l, In l L -> length l = k) -> NoDup L -> NoDup (map (permute p) L)).
    { induction L as [|l L IH]; intros H D; [constructor|]. inversion D; subst. cbn [map]. constructor; [|apply IH; auto; intros; apply H; now right].
      intro I. apply in_map_iff in I. destruct I as (m & E & I). assert (length l = k) by (apply H; now left). assert (length m = k) by (apply H; now right).
      apply (permute_inj p m l) in E; [subst; contradiction|congruence|congruence]. }
    apply G; [|apply DnaLaw.matrices_nodup]. intros l I. apply in_matrices in I. tauto.
  - now rewrite map_length.
  - intros l I. apply in_map_iff in I. destruct I as (m & <- & I). apply in_matrices in I. destruct I as (L & B). apply in_matrices. split.
    + unfold permute. rewrite map_length, (Permutation_length P), seq_length. reflexivity.
    + intros x X. apply B. eapply Permutation_in; [|exact X]. apply permute_perm. now rewrite L.
Qed.
(** every order is taken by the same number of tuples without ties *)
Lemma filter_perm {X} (b : X -> bool) l m : Permutation l m -> length (filter b l) = length (filter b m).
Proof. induction 1; cbn [filter]; repeat match goal with |- context [if ?c then _ else _] => destruct c end; cbn [length]; congruence. Qed.
Definition rising : nat := length (filter asc M).
Lemma order_count p : Permutation p (seq 0 k) -> length (filter (has p) (different w k)) = rising.
Proof.
  intro P. unfold rising. rewrite <- (filter_perm asc _ _ (permute_matrices p P)).
  rewrite VtestLaw.filter_map, map_length. unfold different. fold (distinctb). 
  assert (G : forall L, (forall l, In l L -> length l = k) -> length (filter (has p) (filter distinctb L)) = length (filter (fun l => asc (permute p l)) L)).
  { induction L as [|l L IH]; intro H; [reflexivity|]. cbn [filter]. rewrite asc_permute by (rewrite (H l) by (now left); exact P). destruct (distinctb l); cbn [filter andb]; [destruct (has p l)|]; cbn [length]; rewrite IH by (intros; apply H; now right); reflexivity. }
  apply G. intros l I. apply in_matrices in I. tauto.
Qed.
Lemma order_in o : length o = k -> In (sort_index o) lookup.
Proof. intro L. apply (proj2 LP). rewrite <- L. apply SI. Qed.
Lemma lookup_ne : lookup <> [].
Proof. intro E. assert (I : In (seq 0 k) lookup) by (apply (proj2 LP); apply Permutation_refl). rewrite E in I. destruct I. Qed.
Definition m : R := INR (length lookup).
Lemma m_pos : 0 < m.
Proof. unfold m. pose proof lookup_ne. destruct lookup; [congruence|]. apply lt_0_INR. cbn. lia. Qed.
(** every tuple has one order *)
Lemma one_order o : length o = k -> lsumR lookup (fun p => b2r (has p o)) = 1.
Proof.
  intro L. pose proof (order_in o L) as I. assert (D : NoDup lookup) by apply LP. clear LP. induction D as [|p T N D IH]; [destruct I|]. cbn [lsumR]. destruct I as [->|I].
  - assert (E : has (sort_index o) o = true) by now apply has_spec. rewrite E. rewrite (lsumR_ext T _ (fun _ => 0)); [rewrite lsumR_const; unfold b2r; ring|].
    intros q Q. destruct (has q o) eqn:F; [|reflexivity]. apply has_spec in F. subst q. contradiction.
  - rewrite IH by exact I. destruct (has p o) eqn:F; [|unfold b2r; ring]. apply has_spec in F. subst p. contradiction.
Qed.
Lemma count_ind {X} (b : X -> bool) l : INR (length (filter b l)) = lsumR l (fun x => b2r (b x)).
Proof. induction l as [|x l IH]; [reflexivity|]. cbn [filter lsumR]. rewrite <- IH. destruct (b x); cbn [length]; [rewrite S_INR|]; unfold b2r; ring. Qed.
Lemma orders_total L : (forall o, In o L -> length o = k) -> lsumR lookup (fun p => INR (length (filter (has p) L))) = INR (length L).
Proof.
  intro H. rewrite (lsumR_ext lookup _ (fun p => lsumR L (fun o => b2r (has p o)))) by (intros; apply count_ind). rewrite MissingLaw.lsumR_swap.
  rewrite (lsumR_ext L _ (fun _ => 1)) by (intros; now apply one_order, H). rewrite lsumR_const. ring.
Qed.
Lemma different_count : INR (length (different w k)) = m * INR rising.
Proof.
  rewrite <- (orders_total (different w k)).
  - rewrite (lsumR_ext lookup _ (fun _ => INR rising)); [rewrite lsumR_const; unfold m; ring|]. intros p P. rewrite order_count; [reflexivity|]. now apply (proj2 LP).
  - intros o I. unfold different in I. apply filter_In in I. destruct I as (I & _). apply in_matrices in I. tauto.
Qed.
(** ** all tuples *)
Local Notation share := (order_share sort_index w k).
Lemma share_prb p : share p = VtestLaw.prb M (has p).
Proof. unfold order_share, average, VtestLaw.prb, VtestLaw.cnt. rewrite count_ind. reflexivity. Qed.
Lemma M_len o : In o M -> length o = k.
Proof. intro I. apply in_matrices in I. tauto. Qed.
Lemma M_ne : M <> [].
Proof. intro E. pose proof (matrices_len w k) as L. rewrite E in L. cbn in L. symmetry in L. revert L. apply pow_nonzero, IZR_neq, Z.pow_nonzero; lia. Qed.
Lemma M_pos : 0 < INR (length M).
Proof. pose proof M_ne. destruct M; [congruence|]. apply lt_0_INR. cbn. lia. Qed.
Lemma shares_total : lsumR lookup share = 1.
Proof.
  rewrite (lsumR_ext lookup _ (fun p => / INR (length M) * INR (length (filter (has p) M)))) by (intros; rewrite share_prb; unfold VtestLaw.prb, VtestLaw.cnt, Rdiv; ring).
  rewrite lsumR_scale, orders_total by exact M_len. field. pose proof M_pos. lra.
Qed.
(** the mean of Pearson's statistic *)
Lemma chisq_mean n all : (1 <= n)%nat -> lists_samples M n all ->
  average all (orders_chisq sort_index lookup) = m - 1 + (INR n - 1) * (m * uneven sort_index lookup w k).
Proof.
  intros N1 A. assert (NP : 0 < INR n) by (apply lt_0_INR; lia). pose proof m_pos as MP.
  rewrite (average_ext all _ (fun L => lsumR lookup (fun p => m / INR n * ((INR n / m - VtestLaw.cnt (has p) L) * (INR n / m - VtestLaw.cnt (has p) L))))).
  - rewrite VtestLaw.average_lsumR. rewrite (lsumR_ext lookup _ (fun p => (1 - 2 / m + 1 / m ^ 2) * 0 + (share p * (m - 2) + (1 / m + (INR n - 1) * m * (share p - 1 / m) ^ 2)))).
    + rewrite !lsumR_plus, !lsumR_const. rewrite (lsumR_ext lookup (fun p => share p * (m - 2)) (fun p => (m - 2) * share p)) by (intros; ring). rewrite !lsumR_scale, shares_total. unfold uneven. fold m. field. lra.
    + intros p _. rewrite average_scale. rewrite (average_samples M n all _ A (DnaLaw.matrices_nodup w k)), (square_mean M M_ne), <- share_prb. field. lra.
  - intros L I. unfold orders_chisq. apply A in I. destruct I as (LL & _). rewrite LL. fold m. apply lsumR_ext. intros p _. unfold VtestLaw.cnt. field. lra.
Qed.
(** ** ties *)
Definition ties : R := average M (fun o => b2r (negb (distinctb o))).
Lemma ties_split : ties = 1 - m * INR rising / INR (length M).
Proof.
  rewrite <- different_count. unfold ties, average, different. fold distinctb. rewrite count_ind.
  rewrite (lsumR_ext M (fun o => b2r (negb (distinctb o))) (fun o => 1 + - 1 * b2r (distinctb o))) by (intros; destruct (distinctb x); unfold b2r; cbn [negb]; ring).
  rewrite lsumR_plus, lsumR_scale, lsumR_const. field. pose proof M_pos. lra.
Qed.
(** the part of an order's share due to ties *)
Definition tied (p : list nat) : R := average M (fun o => b2r (negb (distinctb o) && has p o)).
Lemma tied_nonneg p : 0 <= tied p.
Proof.
  unfold tied, average. pose proof M_pos. apply Rmult_le_pos; [|left; now apply Rinv_0_lt_compat]. clear. induction M as [|o L IH]; cbn [lsumR]; [lra|].
  assert (0 <= b2r (negb (distinctb o) && has p o)) by (destruct (_ && _); unfold b2r; lra). lra.
Qed.
Lemma tied_total : lsumR lookup tied = ties.
Proof.
  unfold tied, ties. rewrite <- VtestLaw.average_lsumR. apply average_ext. intros o I. destruct (distinctb o); cbn [negb andb].
  - rewrite lsumR_const. unfold b2r. ring.
  - rewrite one_order by now apply M_len. reflexivity.
Qed.
Lemma share_tied p : In p lookup -> share p - 1 / m = tied p - ties / m.
Proof.
  intro I. pose proof m_pos. pose proof M_pos. assert (E : share p = INR rising / INR (length M) + tied p).
  { apply (proj2 LP) in I. rewrite <- (order_count p I). unfold tied, order_share, average, different. fold distinctb. rewrite count_ind. rewrite <- Rdiv_plus_distr. f_equal. clear.
    induction M as [|o L IH]; cbn [filter lsumR]; [ring|]. destruct (distinctb o); cbn [lsumR negb andb]; rewrite IH; destruct (has p o); unfold b2r; ring. }
  rewrite E, ties_split. field. lra.
Qed.
Lemma sum_squares_le {X} (f : X -> R) l : (forall x, In x l -> 0 <= f x) -> 0 <= lsumR l f /\ lsumR l (fun x => f x ^ 2) <= lsumR l f ^ 2.
Proof.
  induction l as [|x l IH]; intro H; cbn [lsumR]; [lra|]. destruct IH as (A & B); [intros; apply H; now right|]. pose proof (H x (or_introl eq_refl)). split; [lra|].
  assert (0 <= f x * lsumR l f) by (now apply Rmult_le_pos). replace ((f x + lsumR l f) ^ 2) with (f x ^ 2 + 2 * (f x * lsumR l f) + lsumR l f ^ 2) by ring. lra.
Qed.
Lemma uneven_le : 0 <= uneven sort_index lookup w k <= ties ^ 2.
Proof.
  pose proof m_pos. unfold uneven. fold m. split.
  - apply (Rle_trans _ (lsumR lookup (fun _ => 0))); [rewrite lsumR_const; lra|]. apply lsumR_le. intros; apply pow2_ge_0.
  - rewrite (lsumR_ext lookup _ (fun p => tied p ^ 2 + (- (2 * ties / m) * tied p + (ties / m) ^ 2))) by (intros p P; rewrite share_tied by exact P; field; lra).
    rewrite !lsumR_plus, lsumR_scale, lsumR_const, tied_total. destruct (sum_squares_le tied lookup (fun p _ => tied_nonneg p)) as (_ & S). rewrite tied_total in S. fold m.
    assert (E : - (2 * ties / m) * ties + m * (ties / m) ^ 2 = - (ties ^ 2 / m)) by (field; lra).
    assert (0 <= ties ^ 2 / m) by (apply Rmult_le_pos; [apply pow2_ge_0|left; now apply Rinv_0_lt_compat]). lra.
Qed.
(** fewer tuples than orders *)
Lemma uneven_ge : / INR (length M) - / m <= uneven sort_index lookup w k.
Proof.
  pose proof m_pos. pose proof M_pos. unfold uneven. fold m.
  rewrite (lsumR_ext lookup _ (fun p => share p ^ 2 + (- (2 / m) * share p + (1 / m) ^ 2))) by (intros; field; lra).
  rewrite !lsumR_plus, lsumR_scale, lsumR_const, shares_total. fold m.
  assert (S : / INR (length M) <= lsumR lookup (fun p => share p ^ 2)).
  { rewrite <- (Rmult_1_r (/ INR (length M))), <- shares_total, <- lsumR_scale. apply lsumR_le. intros p _. rewrite share_prb. unfold VtestLaw.prb, VtestLaw.cnt.
    set (c := length (filter (has p) M)). assert (INR c <= INR c * INR c) by (rewrite <- mult_INR; apply le_INR; nia).
    replace ((INR c / INR (length M)) ^ 2) with (/ INR (length M) * (INR c * INR c / INR (length M))) by (field; lra).
    apply Rmult_le_compat_l; [left; now apply Rinv_0_lt_compat|]. apply Rmult_le_compat_r; [left; now apply Rinv_0_lt_compat|exact H1]. }
  assert (E : - (2 / m) * 1 + m * (1 / m) ^ 2 = - / m) by (field; lra). lra.
Qed.
End Law.
(** the probability of a tie *)
Lemma ties_step w k : ties w (S k) <= INR k / 2 ^ N.to_nat w + ties w k.
Proof.
  assert (QP : 0 < 2 ^ N.to_nat w) by (apply pow_lt; lra).
  assert (WL : INR (length (words w)) = 2 ^ N.to_nat w).
  { unfold words. rewrite map_length, seq_length. rewrite INR_IZR_INZ, N_nat_Z, N2Z.inj_pow, pow_IZR, N_nat_Z. reflexivity. }
  assert (WN : words w <> []) by (intro E; rewrite E in WL; cbn in WL; lra).
  assert (EM : forall j, matrices w j = tuples (words w) j) by (induction j as [|j IH]; [reflexivity|]; cbn [matrices tuples]; now rewrite IH).
  unfold ties. rewrite !EM. unfold average at 1. rewrite tuples_sum, size_tuples. rewrite MissingLaw.lsumR_swap. cbn [pow].
  unfold average. rewrite size_tuples, WL. set (q := 2 ^ N.to_nat w) in *.
  assert (S : lsumR (tuples (words w) k) (fun l => lsumR (words w) (fun r => b2r (negb (distinctb (r :: l))))) <= lsumR (tuples (words w) k) (fun l => INR k + q * b2r (negb (distinctb l)))).
  { apply lsumR_le. intros l L. apply in_tuples in L. destruct L as (L & _).
    apply (Rle_trans _ (lsumR (words w) (fun r => lsumR l (fun x => b2r (r =? x)%N) + b2r (negb (distinctb l))))).
    - apply lsumR_le. intros r _. assert (NN : forall l, 0 <= lsumR l (fun x => b2r (r =? x)%N)) by (clear; induction l as [|x l IH]; cbn [lsumR]; [lra|destruct (r =? x)%N; unfold b2r in *; lra]).
      destruct (distinctb l) eqn:D; cbn [negb].
      + destruct (distinctb (r :: l)) eqn:D2; cbn [negb]; [specialize (NN l); unfold b2r in *; lra|]. assert (I : In r l).
        { destruct (in_dec N.eq_dec r l) as [|NI]; [assumption|]. exfalso. apply distinctb_spec in D. assert (X : NoDup (r :: l)) by now constructor. apply distinctb_spec in X. congruence. }
        clear -I NN. induction l as [|x l IH]; [destruct I|]. cbn [lsumR]. destruct I as [->|I]; [rewrite N.eqb_refl; specialize (NN l); unfold b2r in *; lra|]. specialize (IH I). destruct (r =? x)%N; unfold b2r in *; lra.
      + specialize (NN l). destruct (distinctb (r :: l)); cbn [negb]; unfold b2r in *; lra.
    - rewrite lsumR_plus, lsumR_const, WL. fold q. rewrite MissingLaw.lsumR_swap. apply Rplus_le_compat_r. rewrite <- L.
      rewrite <- (Rmult_1_r (INR (length l))). rewrite <- (lsumR_const l 1). apply lsumR_le. intros x _. pose proof (words_nodup w) as ND. clear -ND. induction ND as [|r T N D IH]; cbn [lsumR]; [lra|].
      destruct (N.eqb_spec r x) as [->|]; [|unfold b2r in *; lra]. rewrite (lsumR_ext T _ (fun _ => 0)); [rewrite lsumR_const; unfold b2r; lra|]. intros y Y. destruct (N.eqb_spec y x) as [->|]; [contradiction|reflexivity]. }
  rewrite lsumR_plus, lsumR_const, size_tuples, WL, lsumR_scale in S. fold q in S. set (T := lsumR (tuples (words w) k) (fun l => b2r (negb (distinctb l)))) in *. set (U := lsumR _ _) in S |- *. clearbody U T.
  assert (QK : 0 < q ^ k) by (now apply pow_lt). apply (Rmult_le_reg_r (q * q ^ k)); [now apply Rmult_lt_0_compat|].
  replace (U / (q * q ^ k) * (q * q ^ k)) with U by (field; lra). replace ((INR k / q + T / q ^ k) * (q * q ^ k)) with (q ^ k * INR k + q * T) by (field; lra). lra.
Qed.
Lemma ties_le w k : 0 <= ties w k <= INR k * (INR k - 1) / 2 / 2 ^ N.to_nat w.
Proof.
  assert (QP : 0 < 2 ^ N.to_nat w) by (apply pow_lt; lra). split.
  - unfold ties, average. pose proof (M_pos w k). apply Rmult_le_pos; [|left; now apply Rinv_0_lt_compat]. clear. induction (matrices w k) as [|o L IH]; cbn [lsumR]; [lra|]. destruct (distinctb o); unfold b2r in *; cbn [negb]; lra.
  - induction k as [|k IH].
    + unfold ties, average. cbn [matrices lsumR length INR]. assert (E : distinctb [] = true) by (apply distinctb_spec; constructor). rewrite E. unfold b2r. cbn [negb]. apply Req_le. field. lra.
    + eapply Rle_trans; [apply ties_step|]. rewrite S_INR. apply (Rle_trans _ (INR k / 2 ^ N.to_nat w + INR k * (INR k - 1) / 2 / 2 ^ N.to_nat w)); [lra|]. apply Req_le. field. lra.
Qed.
