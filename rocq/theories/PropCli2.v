(** C88: choosing a test with -d.  C89: the number of samples and the other
    numeric settings. *)
From Verif Require Import Base BaseLemmas FileModel CliModel CliSpec CliLemmas CliLemmas2.
Open Scope N_scope.

(** ** Lemmas *)

Lemma fold_last {A} (step : A -> list N -> A) l s a :
  fold_left (fun a s => do x <- a ;; Ok (step x s)) (l ++ [s]) (Ok a) =
  Ok (step (fold_left step l a) s).
Proof.
  rewrite fold_left_app. cbn [fold_left].
  assert (G : forall l a, fold_left (fun a s => do x <- a ;; Ok (step x s)) l (Ok a) =
                          Ok (fold_left step l a)).
  { induction l0 as [|x t IH]; intros b; cbn; auto. }
  rewrite G. reflexivity.
Qed.

Lemma same_start_numeral s n : numeral s n -> same_start s [] = false.
Proof. intros (H & _). destruct s; [congruence|reflexivity]. Qed.

Lemma option_d_number st s n : numeral s n -> n < 2 ^ 31 ->
  option_d st s = (Z.of_N n, snd st).
Proof.
  intros H L. unfold option_d. rewrite (strtol_numeral _ _ H), (same_start_numeral _ _ H).
  rewrite clamp_small, to_int_small by lia. reflexivity.
Qed.
Lemma option_d_word st s : word s -> (length s < 128)%nat -> option_d st s = (fst st, s).
Proof.
  intros H L. unfold option_d. rewrite (strtol_word _ H).
  unfold same_start. rewrite strneq_refl. unfold strncpy, name_length.
  rewrite !firstn_all2; auto; rewrite ?firstn_length; lia.
Qed.

Lemma option_d_words : forall l st, Forall (fun s => word s /\ (length s < 128)%nat) l ->
  fst (fold_left option_d l st) = fst st.
Proof.
  induction l as [|s t IH]; intros st H; [reflexivity|]. inversion H as [|? ? [A B] C]; subst.
  cbn [fold_left]. rewrite IH by assumption. rewrite option_d_word by assumption. reflexivity.
Qed.

Lemma parsecl_test os c l s : parsecl os = Ok c -> d_args os = l ++ [s] ->
  c_test c = option_d (fold_left option_d l ((-1)%Z, [])) s.
Proof.
  intros H E. apply parsecl_inv in H as (c' & P & H). apply project_test in P.
  rewrite E, fold_last in P. injection P as P. cbn [c_test cli0] in P.
  assert (c_test c = c_test c') as -> by (rewrite H; destruct (_ =? 0)%Z; reflexivity).
  congruence.
Qed.

(** ** C88 *)

(** The first registered test called [s]. *)
Definition is_named (r : registry) (s : list N) (num : Z) : Prop :=
  (0 <= num)%Z /\
  (exists t, nth_error (r_types r) (Z.to_nat num) = Some (Some t) /\ sname t = s) /\
  forall k t, (0 <= k < num)%Z -> nth_error (r_types r) (Z.to_nat k) = Some (Some t) -> sname t <> s.

Lemma find_test_spec s : (length s < 128)%nat -> forall l i,
  match find_test l i s with
  | Some num => (i <= num)%Z /\
      (exists t, nth_error l (Z.to_nat (num - i)) = Some (Some t) /\ sname t = s) /\
      (forall k t, (i <= k < num)%Z -> nth_error l (Z.to_nat (k - i)) = Some (Some t) -> sname t <> s)
  | None => forall k t, nth_error l k = Some (Some t) -> sname t <> s
  end.
Proof.
  intros Ls. induction l as [|o t IH]; intros i; cbn [find_test].
  { intros [|k] x H; discriminate. }
  assert (R : forall P, o = None \/ (exists x, o = Some x /\ sname x <> s) ->
    match find_test t (i + 1) s with
    | Some num => (i <= num)%Z /\
      (exists t', nth_error (o :: t) (Z.to_nat (num - i)) = Some (Some t') /\ sname t' = s) /\
      (forall k t', (i <= k < num)%Z -> nth_error (o :: t) (Z.to_nat (k - i)) = Some (Some t') -> sname t' <> s)
    | None => forall k t', nth_error (o :: t) k = Some (Some t') -> sname t' <> s
    end \/ P).
  { intros P N. left. specialize (IH (i + 1)%Z). destruct (find_test t (i + 1) s) as [num|].
    - destruct IH as (A & B & C). split; [lia|]. split.
      + replace (Z.to_nat (num - i)) with (S (Z.to_nat (num - (i + 1)))) by lia. exact B.
      + intros k x K E. destruct (Z.eq_dec k i) as [->|NE].
        * rewrite Z.sub_diag in E. cbn in E. destruct N as [->|(y & -> & N)]; congruence.
        * apply (C k x); [lia|]. replace (Z.to_nat (k - i)) with (S (Z.to_nat (k - (i + 1)))) in E by lia.
          exact E.
    - intros [|k] x E; cbn in E; [|exact (IH k x E)].
      destruct N as [->|(y & -> & N)]; congruence. }
  destruct o as [x|].
  - destruct (strneq 128 (sname x) s) eqn:S0.
    + split; [lia|]. rewrite Z.sub_diag. split.
      * exists x. split; [reflexivity|]. apply (strneq_eq 128); auto.
      * intros k y K. lia.
    + destruct (R False) as [G|[]]; [|exact G]. right. exists x. split; auto.
      intros Q. rewrite Q, strneq_refl in S0. discriminate.
  - destruct (R False) as [G|[]]; [|exact G]. left. reflexivity.
Qed.

(** The number given last selects the test with that number. *)
Theorem C88_by_number r os c before s n :
  parsecl os = Ok c -> d_args os = before ++ [s] -> numeral s n -> n < 2 ^ 31 ->
  length (r_types r) = 1000%nat ->
  run_test r (fst (c_test c)) (snd (c_test c)) =
  if is_registered r (Z.of_N n) then Ok (Z.of_N n) else Exit 1.
Proof.
  intros H E Hn L LR. rewrite (parsecl_test _ _ _ _ H E), (option_d_number _ s n Hn L).
  unfold run_test. cbn [fst snd]. destruct (Z.ltb_spec (Z.of_N n) 0); [lia|].
  destruct (Z.leb_spec 0 (Z.of_N n)); [|lia].
  cbn [andb]. unfold MAXTESTS, is_registered. destruct (Z.ltb_spec (Z.of_N n) 1000).
  - rewrite (aget_ok _ _ None) by lia. cbn [bind].
    rewrite (nth_error_nth' _ None) by lia. destruct (nth _ _ None); reflexivity.
  - destruct (nth_error (r_types r) (Z.to_nat (Z.of_N n))) eqn:X; [|reflexivity].
    assert (nth_error (r_types r) (Z.to_nat (Z.of_N n)) <> None) as Y by congruence.
    apply nth_error_Some in Y. lia.
Qed.

(** With names only, the name given last selects the first registered test of
    that name; a name no test has ends the program with status 1. *)
Theorem C88_by_name r os c before s :
  parsecl os = Ok c -> d_args os = before ++ [s] ->
  Forall (fun s => word s /\ (length s < 128)%nat) (before ++ [s]) ->
  length (r_types r) = 1000%nat ->
  (forall num, is_named r s num -> run_test r (fst (c_test c)) (snd (c_test c)) = Ok num) /\
  ((forall num, ~ is_named r s num) -> run_test r (fst (c_test c)) (snd (c_test c)) = Exit 1).
Proof.
  intros H E F LR. apply Forall_app in F as [F0 F1].
  inversion F1 as [|? ? [W L] _]; subst.
  rewrite (parsecl_test _ _ _ _ H E), (option_d_word _ s W L). cbn [fst snd].
  rewrite option_d_words by assumption. cbn [fst].
  pose proof (find_test_spec s L (r_types r) 0) as S0.
  unfold run_test. change (-1 <? 0)%Z with true. cbv iota.
  destruct (find_test (r_types r) 0 s) as [k|].
  - destruct S0 as (A & (t & B & B') & C). rewrite Z.sub_0_r in B.
    assert (K : (k < 1000)%Z).
    { assert (nth_error (r_types r) (Z.to_nat k) <> None) as Y by congruence.
      apply nth_error_Some in Y. lia. }
    assert (R : (if (0 <=? k)%Z && (k <? MAXTESTS)%Z
      then do t0 <- aget (r_types r) k ;; match t0 with Some _ => Ok k | None => Exit 1 end
      else Exit 1) = Ok k).
    { unfold MAXTESTS. destruct (Z.leb_spec 0 k); [|lia]. destruct (Z.ltb_spec k 1000); [|lia].
      cbn [andb]. unfold aget. destruct (Z.ltb_spec k 0); [lia|]. rewrite B. reflexivity. }
    rewrite R. split.
    + intros num (N0 & (t' & N1 & N2) & N3).
      destruct (Z.lt_trichotomy k num) as [T|[->|T]]; [exfalso|reflexivity|exfalso].
      * apply (N3 k t); auto.
      * apply (C num t'); [lia | | exact N2]. rewrite Z.sub_0_r. exact N1.
    + intros N. exfalso. apply (N k). split; [exact A|]. split; [eauto|].
      intros j x J X. apply (C j x J). rewrite Z.sub_0_r. exact X.
  - split; [|reflexivity]. intros num (N0 & (t' & N1 & N2) & N3). exfalso. exact (S0 _ _ N1 N2).
Qed.

(** Every test of the program's table is selected by its name. *)
Theorem C88_every_test : exists r, dieharder_test_types registry0 = Ok r /\
  forall num t, nth_error (r_types r) num = Some (Some t) ->
  word (sname t) /\ (length (sname t) < 128)%nat /\ is_named r (sname t) (Z.of_nat num).
Proof.
  eexists. split; [rewrite test_types_ok by (vm_compute; reflexivity); reflexivity|].
  cbn [r_types]. intros num t H.
  assert (L : (num < 1000)%nat).
  { assert (nth_error standard num <> None) as Y by congruence. apply nth_error_Some in Y. exact Y. }
  assert (T : In t (diehard_tests ++ sts_tests ++ other_tests)).
  { apply nth_error_In in H. unfold standard in H. rewrite !in_app_iff in H.
    rewrite !in_app_iff. repeat rewrite in_map_iff in H.
    assert (NR : forall n, ~ In (Some t) (repeat None n)).
    { intros n X. apply repeat_spec in X. discriminate. }
    destruct H as [(x & E & I)|[I|[(x & E & I)|[I|[(x & E & I)|I]]]]];
      try (injection E as ->; tauto); exfalso; exact (NR _ I). }
  assert (W : forallb (fun t => match sname t with
        | c :: _ => ((65 <=? c) && (c <=? 90)) || (c =? 95) || ((97 <=? c) && (c <=? 122))
        | [] => false end && (length (sname t) <? 128)%nat)
      (diehard_tests ++ sts_tests ++ other_tests) = true) by (vm_compute; reflexivity).
  rewrite forallb_forall in W. specialize (W t T). apply andb_prop in W as [W1 W2].
  apply Nat.ltb_lt in W2. split; [|split; [exact W2|]].
  - destruct (sname t) as [|c r]; [discriminate|]. exists c, r. split; auto. unfold letter. lia.
  - split; [lia|]. rewrite Nat2Z.id. split; [exists t; auto|].
    intros k t' K E EQ. cbn [r_types] in E.
    assert (U : forallb (fun ij => match nth_error standard (fst ij), nth_error standard (snd ij) with
          | Some (Some a), Some (Some b) => (fst ij =? snd ij)%nat || negb (strneq 128 (sname a) (sname b))
          | _, _ => true end)
       (let l := filter (fun i => match nth_error standard i with Some (Some _) => true | _ => false end)
                   (seq 0 1000) in list_prod l l) = true) by (vm_compute; reflexivity).
    rewrite forallb_forall in U. specialize (U (Z.to_nat k, num)).
    cbn [fst snd] in U. rewrite E, H, EQ, strneq_refl in U. cbn [negb] in U.
    rewrite orb_false_r in U. destruct (Nat.eqb_spec (Z.to_nat k) num); [lia|].
    assert (false = true); [|discriminate]. apply U. apply in_prod; apply filter_In.
    + split; [apply in_seq; lia|]. rewrite E. reflexivity.
    + split; [apply in_seq; lia|]. rewrite H. reflexivity.
Qed.

(** A number with something after it is taken as that number, and a name
    after a number is ignored. *)
Theorem C88_garbage_refuted : exists r, dieharder_test_types registry0 = Ok r /\ exists c,
  parsecl [Optd (bytes_of "15-diehard_craps")] = Ok c /\
  run_test r (fst (c_test c)) (snd (c_test c)) = Ok 15%Z.
Proof.
  eexists. split; [rewrite test_types_ok by (vm_compute; reflexivity); reflexivity|].
  eexists. split; [reflexivity|]. vm_compute. reflexivity.
Qed.
Theorem C88_last_refuted : exists r, dieharder_test_types registry0 = Ok r /\ exists c,
  parsecl [Optd (bytes_of "5"); Optd (bytes_of "sts_runs")] = Ok c /\
  run_test r (fst (c_test c)) (snd (c_test c)) = Ok 5%Z /\ is_named r (bytes_of "sts_runs") 101.
Proof.
  destruct C88_every_test as (r & E & H). exists r. split; [exact E|].
  rewrite test_types_ok in E by (vm_compute; reflexivity).
  eexists. split; [reflexivity|]. split.
  - injection E as <-. vm_compute. reflexivity.
  - apply (H 101%nat (mkd "sts_runs" 100 100000 1)). injection E as <-. vm_compute. reflexivity.
Qed.

Example C88_by_number_case : exists r, dieharder_test_types registry0 = Ok r /\ exists c,
  parsecl [Optd (bytes_of "rgb_bitdist"); Optd (bytes_of "204")] = Ok c /\
  numeral (bytes_of "204") 204 /\
  run_test r (fst (c_test c)) (snd (c_test c)) = Ok 204%Z.
Proof.
  eexists. split; [rewrite test_types_ok by (vm_compute; reflexivity); reflexivity|].
  eexists. split; [reflexivity|]. split; [|vm_compute; reflexivity].
  split; [discriminate|]. split; [|reflexivity].
  repeat apply Forall_cons; try apply Forall_nil; split; discriminate.
Qed.
Example C88_by_name_case : exists r, dieharder_test_types registry0 = Ok r /\ exists c,
  parsecl [Optd (bytes_of "rgb_bitdist"); Optd (bytes_of "dab_dct")] = Ok c /\
  run_test r (fst (c_test c)) (snd (c_test c)) = Ok 206%Z.
Proof.
  eexists. split; [rewrite test_types_ok by (vm_compute; reflexivity); reflexivity|].
  eexists. split; [reflexivity|]. vm_compute. reflexivity.
Qed.

(** ** C89 *)

Lemma parsecl_tsamples os c l s : parsecl os = Ok c -> t_args os = l ++ [s] ->
  c_tsamples c = option_t (fold_left option_t l 0) s.
Proof.
  intros H E. apply parsecl_inv in H as (c' & P & H). apply project_tsamples in P.
  rewrite E, fold_last in P. injection P as P. cbn [c_tsamples cli0] in P.
  assert (c_tsamples c = c_tsamples c') as -> by (rewrite H; destruct (_ =? 0)%Z; reflexivity).
  congruence.
Qed.

(** -t n requests n samples for n below 2^31. *)
Theorem C89_samples os c before s n :
  parsecl os = Ok c -> t_args os = before ++ [s] -> numeral s n -> n < 2 ^ 31 ->
  c_tsamples c = n.
Proof.
  intros H E Hn L. rewrite (parsecl_tsamples _ _ _ _ H E). unfold option_t.
  rewrite (strtol_numeral _ _ Hn). cbn [fst]. rewrite clamp_small, to_int_small by lia.
  destruct (Z.leb_spec 0 (Z.of_N n)); lia.
Qed.
(** From 2^31 on never: the number is reduced modulo 2^32, or (with a
    warning) the test's default is used, shown by 0. *)
Theorem C89_samples_refuted os c s n :
  parsecl os = Ok c -> t_args os = [s] -> numeral s n -> 2 ^ 31 <= n -> n < 2 ^ 63 ->
  c_tsamples c = (if n mod 2 ^ 32 <? 2 ^ 31 then n mod 2 ^ 32 else 0) /\ c_tsamples c <> n.
Proof.
  intros H E Hn L1 L2. rewrite (parsecl_tsamples _ _ [] s H E). cbn [fold_left]. unfold option_t.
  rewrite (strtol_numeral _ _ Hn). cbn [fst]. rewrite clamp_small by lia.
  assert (X : to_int (Z.of_N n) =
    if n mod 2 ^ 32 <? 2 ^ 31 then Z.of_N (n mod 2 ^ 32) else (Z.of_N (n mod 2 ^ 32) - 2 ^ 32)%Z).
  { unfold to_int. change (2 ^ 32) with 4294967296. change (2 ^ 31) with 2147483648.
    change (2 ^ 32)%Z with 4294967296%Z. change (2 ^ 31)%Z with 2147483648%Z.
    pose proof (N.div_mod n 4294967296 ltac:(discriminate)) as D.
    pose proof (N.mod_lt n 4294967296 ltac:(discriminate)) as M.
    set (q := n / 4294967296) in *. set (m := n mod 4294967296) in *. clearbody q m.
    replace (Z.of_N n + 2147483648)%Z with (Z.of_N m + 2147483648 + Z.of_N q * 4294967296)%Z by lia.
    rewrite Z_mod_plus_full. destruct (N.ltb_spec m 2147483648).
    - rewrite Z.mod_small by lia. lia.
    - replace (Z.of_N m + 2147483648)%Z with ((Z.of_N m - 2147483648) + 1 * 4294967296)%Z by lia.
      rewrite Z_mod_plus_full, Z.mod_small by lia. lia. }
  rewrite X. pose proof (N.mod_lt n (2 ^ 32) ltac:(discriminate)) as M.
  pose proof (N.mod_le n (2 ^ 32) ltac:(discriminate)) as M'.
  destruct (N.ltb_spec (n mod 2 ^ 32) (2 ^ 31)).
  - destruct (Z.leb_spec 0 (Z.of_N (n mod 2 ^ 32))); [|lia]. rewrite N2Z.id. split; [reflexivity|].
    intros Q. rewrite Q in *. lia.
  - change (2 ^ 32)%Z with 4294967296%Z. change (2 ^ 32) with 4294967296 in *. 
    change (2 ^ 31) with 2147483648 in *.
    destruct (Z.leb_spec 0 (Z.of_N (n mod 4294967296) - 4294967296)%Z) as [Y|Y].
    + exfalso. clear - Y M. generalize dependent (n mod 4294967296). intros; lia.
    + split; [reflexivity|]. clear - L1. lia.
Qed.

(** The other numeric settings: the number given last, below 2^32. *)
Lemma project_u u os c c' : parse_options c os = Ok c' ->
  forall before s, u_args u os = before ++ [s] ->
  (u = Output_format -> ~ In OptB os) ->
  c_u c' u = u32_of_Z (fst (strtol s)).
Proof.
  revert c. induction os as [|o t IH]; intros c P before s E NB.
  { destruct before; discriminate. }
  cbn [parse_options] in P. destruct (parse_option c o) as [c1|?|?|] eqn:Q; cbn [bind] in P; try discriminate.
  assert (SP : (exists b s', u_args u t = b ++ [s']) \/ u_args u t = []).
  { destruct (u_args u t) as [|x l] eqn:U; [right; auto|left].
    destruct (exists_last (l := x :: l)) as (b & s' & X); [discriminate|]. eauto. }
  destruct SP as [(b & s' & X)|X].
  - rewrite (IH _ P b s' X); [|intros Y Z; apply (NB Y); right; exact Z].
    assert (s' = s) as ->; [|reflexivity].
    unfold u_args in *. cbn [flat_map] in E. rewrite X in E.
    rewrite app_assoc in E. apply app_inj_tail in E. tauto.
  - assert (K : c_u c1 u = u32_of_Z (fst (strtol s))).
    { unfold u_args in E, X. cbn [flat_map] in E. rewrite X, app_nil_r in E.
      destruct o; try (destruct before; discriminate).
      destruct (usetting_eqb u0 u) eqn:UE; [|destruct before; discriminate].
      destruct before as [|? [|]]; try discriminate. injection E as ->.
      cbn in Q. injection Q as <-. cbn. unfold assign.
      destruct u0, u; try discriminate; reflexivity. }
    clear - K P X NB. revert c1 K P. induction t as [|o' t IH]; intros c1 K P.
    { cbn in P. injection P as <-. exact K. }
    cbn [parse_options] in P. destruct (parse_option c1 o') as [c2|?|?|] eqn:Q; cbn [bind] in P; try discriminate.
    unfold u_args in *. cbn [flat_map] in X. apply app_eq_nil in X as [X1 X2].
    refine (IH _ X2 c2 _ P).
    + intros Y [Z|Z]; apply (NB Y); [left | right; right]; assumption.
    + rewrite <- K. clear - Q X1 NB. destruct o'; cbn in Q;
        repeat match type of Q with
        | context [bind ?x _] => destruct x eqn:?; cbn in Q; try discriminate
        end; try discriminate; injection Q as <-; cbn; try reflexivity.
      * unfold assign. destruct u; try reflexivity. exfalso. apply NB; [reflexivity|]. right. left. reflexivity.
      * unfold assign. destruct (usetting_eqb u0 u) eqn:E; [discriminate|].
        destruct u, u0; try reflexivity; discriminate.
Qed.
Theorem C89_settings u os c before s n :
  parsecl os = Ok c -> u_args u os = before ++ [s] -> numeral s n -> n < 2 ^ 32 ->
  (u = Output_format -> ~ In OptB os) ->
  c_u c u = n.
Proof.
  intros H E Hn L NB. apply parsecl_inv in H as (c' & P & H).
  assert (c_u c u = c_u c' u) as -> by (rewrite H; destruct (_ =? 0)%Z; reflexivity).
  rewrite (project_u u os cli0 c' P before s E NB), (strtol_numeral _ _ Hn). cbn [fst].
  rewrite clamp_small, u32_small, N2Z.id by lia. reflexivity.
Qed.

Example C89_case : exists c,
  parsecl [OptU Ntuple (bytes_of "7"); Optt (bytes_of "5000"); OptU Ntuple (bytes_of "9")] = Ok c /\
  c_tsamples c = 5000 /\ c_u c Ntuple = 9.
Proof. eexists. split; [reflexivity|]. split; reflexivity. Qed.
Example C89_refuted_case : exists c,
  parsecl [OptAll; Optt (bytes_of "4294967301")] = Ok c /\ c_tsamples c = 5.
Proof. eexists. split; [reflexivity|]. reflexivity. Qed.

Print Assumptions C88_by_number.
Print Assumptions C88_by_name.
Print Assumptions C88_every_test.
Print Assumptions C88_garbage_refuted.
Print Assumptions C88_last_refuted.
Print Assumptions C89_samples.
Print Assumptions C89_samples_refuted.
Print Assumptions C89_settings.
