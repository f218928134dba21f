(** C157: the listing of the tests (list_tests.c). *)
From Coq Require Import Sorted.
From Verif Require Import Base BaseLemmas FileModel CliModel CliSpec CliLemmas CliLemmas2 PropCli PropCli2 ListTestsModel.
Open Scope Z_scope.

Definition number_of (e : Z * list N * mark) : Z := fst (fst e).

Lemma aget_nth {A} (l : list A) i : 0 <= i < Z.of_nat (length l) -> exists x, nth_error l (Z.to_nat i) = Some x /\ aget l i = Ok x.
Proof.
  intros H. destruct (nth_error l (Z.to_nat i)) as [x|] eqn:E.
  - exists x. split; [reflexivity|]. unfold aget. destruct (Z.ltb_spec i 0); [lia|]. rewrite E. reflexivity.
  - apply nth_error_None in E. lia.
Qed.

(** what the loop delivers, for any table *)
Lemma list_from_spec t : forall n i, 0 <= i -> i + Z.of_nat n <= Z.of_nat (length t) -> exists l, list_from t i n = Ok l /\
  (forall num nm m, In (num, nm, m) l <-> i <= num < i + Z.of_nat n /\ m = mark_of num /\
     exists d, nth_error t (Z.to_nat num) = Some (Some d) /\ nm = sname d) /\
  StronglySorted (fun a b => number_of a < number_of b) l.
Proof.
  induction n as [|n IH]; intros i I L.
  - exists []. split; [reflexivity|]. split; [|constructor]. intros num nm m. split; [intros []|]. intros (H & _). lia.
  - destruct (IH (i + 1) ltac:(lia) ltac:(lia)) as (l & E & H & S). destruct (aget_nth t i ltac:(lia)) as (x & X & A).
    cbn [list_from]. rewrite A. cbn [bind]. rewrite E. cbn [bind]. eexists. split; [reflexivity|]. destruct x as [d|].
    + split.
      * intros num nm m. cbn [In]. rewrite H. split.
        -- intros [Q|(Q1 & Q2)]; [injection Q as <- <- <-; repeat split; try lia; exists d; auto|]. split; [lia|exact Q2].
        -- intros (Q & -> & d' & N & ->). destruct (Z.eq_dec num i) as [->|Ne].
           ++ left. rewrite X in N. injection N as ->. reflexivity.
           ++ right. split; [lia|]. split; [reflexivity|]. eauto.
      * constructor; [exact S|]. apply Forall_forall. intros [[num nm] m] Q. apply H in Q. cbn. lia.
    + split; [|exact S]. intros num nm m. rewrite H. split.
      * intros (Q1 & Q2). split; [lia|exact Q2].
      * intros (Q & M & d' & N & E'). split; [|eauto]. destruct (Z.eq_dec num i) as [->|Ne]; [|lia]. rewrite X in N. discriminate N.
Qed.

Lemma nothing_above num d : nth_error standard num = Some (Some d) -> (num < 900)%nat.
Proof.
  intro H. destruct (le_lt_dec 900 num) as [G|G]; [|exact G]. exfalso.
  assert (E : skipn 900 standard = repeat None 100) by (vm_compute; reflexivity).
  rewrite <- (firstn_skipn 900 standard), E, nth_error_app2 in H by (rewrite firstn_length; lia).
  apply nth_error_In, repeat_spec in H. discriminate H.
Qed.

(** C157: -l lists every registered test once, in the order of their numbers,
    each under the number and the name that choose it, and nothing else. *)
Theorem C157_listed : forall r, length (r_types r) = 1000%nat -> exists r1 l, dieharder_test_types r = Ok r1 /\ list_tests r = Ok l /\
  StronglySorted (fun a b => number_of a < number_of b) l /\
  (forall num, In num (map number_of l) <-> 0 <= num /\ is_registered r1 num = true) /\
  (forall num nm m, In (num, nm, m) l -> exists d, nth_error (r_types r1) (Z.to_nat num) = Some (Some d) /\ sname d = nm).
Proof.
  intros r L. eexists. destruct (list_from_spec standard 900 0 ltac:(lia) ltac:(vm_compute; congruence)) as (l & E & H & S).
  exists l. split; [apply test_types_ok, L|]. split; [unfold list_tests; rewrite test_types_ok by exact L; exact E|].
  split; [exact S|]. split.
  - intro num. unfold is_registered. cbn [r_types]. rewrite in_map_iff. split.
    + intros ([[n nm] m] & <- & Q). apply H in Q. destruct Q as (Q & _ & d & N & _). unfold number_of. cbn [fst]. rewrite N. split; [lia|reflexivity].
    + intros (Q & N). destruct (nth_error standard (Z.to_nat num)) as [[d|]|] eqn:X; try discriminate N.
      exists (num, sname d, mark_of num). split; [reflexivity|]. apply H. pose proof (nothing_above _ _ X). split; [lia|]. eauto.
  - intros num nm m Q. cbn [r_types]. apply H in Q. destruct Q as (_ & _ & d & N & ->). eauto.
Qed.

(** Whoever gives a listed number to -d gets that test; a number that is not
    listed ends the program. *)
Theorem C157_choose : forall r l os c before s n, length (r_types r) = 1000%nat -> list_tests r = Ok l ->
  parsecl os = Ok c -> d_args os = before ++ [s] -> numeral s n -> (n < 2 ^ 31)%N ->
  exists r1, dieharder_test_types r = Ok r1 /\
  (In (Z.of_N n) (map number_of l) -> run_test r1 (fst (c_test c)) (snd (c_test c)) = Ok (Z.of_N n)) /\
  (~ In (Z.of_N n) (map number_of l) -> run_test r1 (fst (c_test c)) (snd (c_test c)) = Exit 1).
Proof.
  intros r l os c before s n L E P D Hn B. destruct (C157_listed r L) as (r1 & l' & T & E' & _ & H & _).
  rewrite E in E'. injection E' as <-. exists r1. split; [exact T|].
  assert (L1 : length (r_types r1) = 1000%nat). { rewrite test_types_ok in T by exact L. injection T as <-. vm_compute. reflexivity. }
  rewrite (C88_by_number r1 os c before s n P D Hn B L1). rewrite H. split.
  - intros (_ & ->). reflexivity.
  - intro X. destruct (is_registered r1 (Z.of_N n)); [|reflexivity]. exfalso. apply X. split; [lia|reflexivity].
Qed.

(** The marks, by the names of the tests. *)
Theorem C157_marks : forall r l, length (r_types r) = 1000%nat -> list_tests r = Ok l ->
  map (fun e => snd (fst e)) (filter (fun e => match snd e with Suspect => true | _ => false end) l) =
    map bytes_of ["diehard_opso"; "diehard_oqso"; "diehard_dna"]%string /\
  map (fun e => snd (fst e)) (filter (fun e => match snd e with DoNotUse => true | _ => false end) l) = [bytes_of "diehard_sums"].
Proof.
  intros r l L E. unfold list_tests in E. rewrite test_types_ok in E by exact L. cbn [bind r_types] in E.
  vm_compute in E. injection E as <-. split; vm_compute; reflexivity.
Qed.

(** C157: -a runs every test listed, ... *)
Theorem C157_all : forall l nt, list_tests registry0 = Ok l -> exists r, dieharder_test_types registry0 = Ok r /\
  forall num, In num (map number_of l) -> exists n, In (num, n) (schedule r nt).
Proof.
  intros l nt E. destruct (C46_all_tests nt) as (r & T & _ & A & _). exists r. split; [exact T|].
  destruct (C157_listed registry0 eq_refl) as (r1 & l' & T' & E' & _ & H & _).
  rewrite E in E'. injection E' as <-. rewrite T in T'. injection T' as <-.
  intros num I. apply H in I. destruct I as (P & R). apply A; auto.
Qed.
(** ... also the one marked "Do Not Use". *)
Theorem C157_do_not_use_refuted : forall nt, exists r l, dieharder_test_types registry0 = Ok r /\ list_tests registry0 = Ok l /\
  In (14, bytes_of "diehard_sums", DoNotUse) l /\ In (14, nt) (schedule r nt).
Proof.
  intro nt. destruct (C46_all_tests nt) as (r & T & S & _). destruct (C157_listed registry0 eq_refl) as (r1 & l & T' & E & _ & H & Nm).
  exists r, l. split; [exact T|]. split; [exact E|]. rewrite T in T'. injection T' as <-. split.
  - assert (I : In 14 (map number_of l)).
    { apply H. split; [lia|]. rewrite test_types_ok in T by reflexivity. injection T as <-. reflexivity. }
    apply in_map_iff in I. destruct I as ([[n nm] m] & N & I). unfold number_of in N. cbn [fst] in N. subst n.
    pose proof I as I2. destruct (Nm _ _ _ I) as (d & D & <-).
    assert (M : m = DoNotUse).
    { unfold list_tests in E. rewrite test_types_ok in E by reflexivity. cbn [bind r_types] in E.
      destruct (list_from_spec standard 900 0 ltac:(lia) ltac:(vm_compute; congruence)) as (l2 & E2 & H2 & _).
      rewrite E in E2. injection E2 as <-. apply H2 in I. apply I. }
    subst m. rewrite test_types_ok in T by reflexivity. injection T as <-. cbn [r_types] in D. vm_compute in D. injection D as <-. exact I2.
  - rewrite S. apply in_or_app. left. apply in_map_iff. exists 14. split; [reflexivity|]. apply in_or_app. left. vm_compute. tauto.
Qed.

Example C157_ex : exists l, list_tests registry0 = Ok l /\ length l = 33%nat /\
  nth_error l 14 = Some (14, bytes_of "diehard_sums", DoNotUse) /\ nth_error l 18 = Some (100, bytes_of "sts_monobit", Good) /\
  exists c, parsecl [Optd (bytes_of "100")] = Ok c.
Proof.
  eexists. split; [unfold list_tests; rewrite test_types_ok by reflexivity; cbn [bind r_types]; vm_compute; reflexivity|].
  repeat split. eexists. reflexivity.
Qed.

Print Assumptions C157_listed.
Print Assumptions C157_choose.
Print Assumptions C157_marks.
Print Assumptions C157_all.
Print Assumptions C157_do_not_use_refuted.
