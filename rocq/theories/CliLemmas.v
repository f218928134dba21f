(** Lemmas about the command-line model. *)
From Verif Require Import Base BaseLemmas FileModel CliModel CliSpec.
Open Scope N_scope.

(** ** strtol *)

Definition number (s : list N) : N := fold_left (fun a c => 10 * a + (c - 48)) s 0.

Lemma digits10_all : forall s acc,
  Forall (fun c => 48 <= c <= 57) s ->
  digits10 s acc = (fold_left (fun a c => 10 * a + (c - 48)) s acc, []).
Proof.
  induction s as [|c t IH]; intros acc H; [reflexivity|].
  inversion H; subst. cbn [digits10 fold_left].
  assert (is_digit c = true) as -> by (unfold is_digit; lia).
  apply IH; assumption.
Qed.

Lemma digit_plain c : 48 <= c <= 57 ->
  isspace c = false /\ (c =? 43) = false /\ (c =? 45) = false /\ is_digit c = true.
Proof. intros H. unfold isspace, is_digit. lia. Qed.

Lemma letter_plain c : letter c ->
  isspace c = false /\ (c =? 43) = false /\ (c =? 45) = false /\ is_digit c = false.
Proof. unfold letter, isspace, is_digit. lia. Qed.

Lemma strtol_numeral s n : numeral s n ->
  strtol s = (clamp_long (Z.of_N n), []).
Proof.
  intros (H0 & H1 & ->). destruct s as [|c t]; [congruence|].
  inversion H1; subst. destruct (digit_plain c H3) as (A & B & C & D).
  unfold strtol. cbn [skip_space]. rewrite A, B, C, D, digits10_all by assumption.
  reflexivity.
Qed.

Lemma strtol_word s : word s -> strtol s = (0%Z, s).
Proof.
  intros (c & t & -> & H). destruct (letter_plain c H) as (A & B & C & D).
  unfold strtol. cbn [skip_space]. rewrite A, B, C, D. reflexivity.
Qed.

Lemma clamp_small z : (- 2 ^ 63 <= z < 2 ^ 63)%Z -> clamp_long z = z.
Proof. unfold clamp_long. intros H. destruct (Z.ltb_spec z (- 2 ^ 63)); [lia|].
  destruct (Z.ltb_spec (2 ^ 63 - 1) z); lia. Qed.

Lemma to_int_small z : (- 2 ^ 31 <= z < 2 ^ 31)%Z -> to_int z = z.
Proof. unfold to_int. intros H. rewrite Z.mod_small by lia. lia. Qed.

Lemma u32_small z : (0 <= z < 2 ^ 32)%Z -> u32_of_Z z = Z.to_N z.
Proof. intros H. unfold u32_of_Z. rewrite Z.mod_small by lia. reflexivity. Qed.

Lemma strneq_refl n s : strneq n s s = true.
Proof. revert s; induction n; intros [|c t]; cbn; auto. rewrite N.eqb_refl, IHn. reflexivity. Qed.

Lemma strneq_eq n : forall a b, strneq n a b = true ->
  (length a < n \/ length b < n)%nat -> a = b.
Proof.
  induction n; intros a b H L; [lia|].
  destruct a as [|x a], b as [|y b]; cbn in H; try discriminate; auto.
  apply andb_prop in H as [H1 H2]. apply N.eqb_eq in H1. subst.
  f_equal. apply IHn; auto. cbn in L. lia.
Qed.

Lemma strneq_firstn n : forall a b, strneq n a b = true -> firstn n a = firstn n b.
Proof.
  induction n; intros a b H; [reflexivity|].
  destruct a as [|x a], b as [|y b]; cbn in H; try discriminate; auto.
  apply andb_prop in H as [H1 H2]. apply N.eqb_eq in H1. subst.
  cbn. f_equal. apply IHn; auto.
Qed.

(** ** Parsing in general *)

Lemma parse_app c os1 os2 :
  parse_options c (os1 ++ os2) =
  do c' <- parse_options c os1 ;; parse_options c' os2.
Proof.
  revert c. induction os1 as [|o t IH]; intros c; [reflexivity|].
  cbn. destruct (parse_option c o); cbn; auto.
Qed.

(** The result of parsecl is the result of the loop, with the flags replaced
    by the default when the last -D value was 0. *)
Lemma parsecl_inv os c : parsecl os = Ok c ->
  exists c', parse_options cli0 os = Ok c' /\
    c = if (snd (c_flags c') =? 0)%Z then set_flags c' (tflag_default, snd (c_flags c')) else c'.
Proof.
  unfold parsecl. destruct os as [|o t]; [discriminate|].
  destruct (parse_options cli0 (o :: t)) as [c'|?|?|] eqn:E; cbn; try discriminate.
  destruct (0 <? c_err c'); [discriminate|].
  destruct (c_list c'); [discriminate|]. destruct (c_show c'); [discriminate|].
  destruct (c_help c'); [discriminate|]. intros H. exists c'. split; auto.
  destruct (snd (c_flags c') =? 0)%Z; congruence.
Qed.

(** One projection of the settings: the options that change it are folded,
    all others leave it alone. *)
Section Projection.
Context {A : Type} (get : cli -> A) (args : copt -> list (list N)) (step : A -> list N -> outcome A).
Hypothesis one : forall c o c', parse_option c o = Ok c' ->
  fold_left (fun a s => do x <- a ;; step x s) (args o) (Ok (get c)) = Ok (get c').
Lemma project : forall os c c', parse_options c os = Ok c' ->
  fold_left (fun a s => do x <- a ;; step x s) (flat_map args os) (Ok (get c)) = Ok (get c').
Proof.
  induction os as [|o t IH]; intros c c' H; cbn in *; [congruence|].
  destruct (parse_option c o) as [c1|?|?|] eqn:E; cbn in H; try discriminate.
  rewrite fold_left_app, (one _ _ _ E). apply IH; assumption.
Qed.
End Projection.

Definition dstep (st : N * Z) s := option_D st s.

Ltac parse_case E :=
  cbn in E; repeat match type of E with
  | context [bind ?x _] => destruct x eqn:?; cbn in E; try discriminate
  end; try (injection E as <-); cbn; auto; try congruence.

Lemma project_flags os c c' : parse_options c os = Ok c' ->
  fold_left (fun a s => do x <- a ;; option_D x s) (D_args os) (Ok (c_flags c)) = Ok (c_flags c').
Proof.
  apply (project c_flags (fun o => match o with OptD s => [s] | _ => [] end)).
  intros a o b E. destruct o; parse_case E.
Qed.
Lemma project_test os c c' : parse_options c os = Ok c' ->
  fold_left (fun a s => do x <- a ;; Ok (option_d x s)) (d_args os) (Ok (c_test c)) = Ok (c_test c').
Proof.
  apply (project c_test (fun o => match o with Optd s => [s] | _ => [] end) (fun x s => Ok (option_d x s))).
  intros a o b E. destruct o; parse_case E.
Qed.
Lemma project_tsamples os c c' : parse_options c os = Ok c' ->
  fold_left (fun a s => do x <- a ;; Ok (option_t x s)) (t_args os) (Ok (c_tsamples c)) = Ok (c_tsamples c').
Proof.
  apply (project c_tsamples (fun o => match o with Optt s => [s] | _ => [] end) (fun x s => Ok (option_t x s))).
  intros a o b E. destruct o; parse_case E.
Qed.
(** ** -D *)

Lemma find_field_word s k : find_field (firstn TCNT table_fields) 0 s = Some k ->
  nth_error (firstn TCNT table_fields) k = Some s.
Proof.
  assert (G : forall fields i k, Forall (fun f => (length f < TLENGTH)%nat) fields ->
    find_field fields i s = Some k -> (i <= k)%nat /\ nth_error fields (k - i) = Some s).
  { induction fields as [|f t IH]; intros i j H E; cbn [find_field] in E; [discriminate|].
    inversion H; subst. destruct (strneq TLENGTH s f) eqn:S0.
    - injection E as <-. rewrite Nat.sub_diag. split; auto. cbn. f_equal. symmetry.
      apply (strneq_eq TLENGTH); auto.
    - apply IH in E; auto. destruct E as [L E]. split; [lia|].
      replace (j - i)%nat with (S (j - S i)) by lia. exact E. }
  intros H. apply G in H; [rewrite Nat.sub_0_r in H; apply H|].
  unfold TCNT, table_fields, TLENGTH. cbn. repeat constructor; cbn; lia.
Qed.

Lemma option_D_default t s : asks_default s -> option_D t s = Ok (tflag_default, 0%Z).
Proof.
  intros [-> | H]; unfold option_D; destruct t as [t tmp].
  - reflexivity.
  - rewrite (strtol_numeral _ _ H). reflexivity.
Qed.

Lemma option_D_known t tmp s m : asks_known s m -> t < 2 ^ 32 ->
  m < 2 ^ 18 /\ 0 < m /\ exists tmp', tmp' <> 0%Z /\ option_D (t, tmp) s = Ok (add32 t m, tmp').
Proof.
  intros H Ht. destruct H as [s m H0 H1 H2 | s m H0 H1].
  - repeat split; auto. exists (Z.of_N m). split; [lia|].
    unfold option_D. rewrite (strtol_numeral _ _ H0), clamp_small by lia.
    rewrite to_int_small by lia. cbn [bind].
    destruct (Z.eqb_spec (Z.of_N m) 0); [lia|].
    rewrite u32_small, N2Z.id by lia. reflexivity.
  - unfold output_fields in H0. cbn [In] in H0.
    repeat (destruct H0 as [H0|H0];
      [injection H0 as <- <-; try congruence; (split; [reflexivity|]);
       (split; [reflexivity|]); eexists; (split; [|reflexivity]); discriminate |]).
    contradiction.
Qed.

Lemma lt_2_18_32 m : m < 2 ^ 18 -> m < 2 ^ 32.
Proof. change (2 ^ 18) with 262144. change (2 ^ 32) with 4294967296. lia. Qed.

Lemma disjoint_union m ms : Forall (fun b => N.land m b = 0) ms -> N.land m (union ms) = 0.
Proof.
  induction 1; [apply N.land_0_r|].
  change (union (x :: l)) with (N.lor x (union l)).
  rewrite N.land_lor_distr_r, H, IHForall. reflexivity.
Qed.

Lemma lor_lt a b n : a < 2 ^ n -> b < 2 ^ n -> N.lor a b < 2 ^ n.
Proof.
  intros Ha Hb. destruct (N.eq_dec (N.lor a b) 0) as [->|E].
  { apply N.neq_0_lt_0, N.pow_nonzero. discriminate. }
  apply N.log2_lt_pow2; [lia|]. rewrite N.log2_lor.
  destruct (N.eq_dec a 0) as [->|]; destruct (N.eq_dec b 0) as [->|].
  - cbn in E. congruence.
  - change (N.log2 0) with 0. rewrite N.max_0_l. apply N.log2_lt_pow2; lia.
  - change (N.log2 0) with 0. rewrite N.max_0_r. apply N.log2_lt_pow2; lia.
  - apply N.max_lub_lt; apply N.log2_lt_pow2; lia.
Qed.

Lemma add32_disjoint a b : a < 2 ^ 18 -> b < 2 ^ 18 -> N.land a b = 0 ->
  add32 a b = N.lor a b.
Proof.
  intros Ha Hb H. unfold add32, w32.
  rewrite N.add_nocarry_lxor, N.lxor_lor by assumption.
  apply N.mod_small. apply lt_2_18_32, lor_lt; assumption.
Qed.

(** A run of -D options without repetition, on top of flags they do not
    share. *)
Lemma flags_run : forall reqs t tmp,
  Forall (fun sm => asks_known (fst sm) (snd sm)) reqs ->
  no_repetition (t :: map snd reqs) -> t < 2 ^ 18 ->
  exists tmp', (reqs <> [] -> tmp' <> 0%Z) /\ (reqs = [] -> tmp' = tmp) /\
  fold_left (fun a s => do x <- a ;; option_D x s) (map fst reqs) (Ok (t, tmp)) =
  Ok (N.lor t (union (map snd reqs)), tmp').
Proof.
  induction reqs as [|[s m] r IH]; intros t tmp H D L.
  { exists tmp. cbn. rewrite N.lor_0_r. repeat split; auto; congruence. }
  inversion H; subst. cbn [fst snd map] in *.
  destruct (option_D_known t tmp s m H2 (lt_2_18_32 _ L)) as (M & M0 & tmp1 & N1 & E).
  inversion D as [|? ? D1 D2]; subst. inversion D1; subst. inversion D2; subst.
  cbn [fold_left bind]. rewrite E, add32_disjoint by auto.
  destruct (IH (N.lor t m) tmp1) as (tmp2 & A & B & C); auto.
  { constructor; auto. rewrite Forall_forall in *. intros b Hb.
    rewrite N.land_lor_distr_l, (H5 b Hb). rewrite (H6 b Hb). reflexivity. }
  { apply lor_lt; assumption. }
  exists tmp2. rewrite C. change (union (m :: map snd r)) with (N.lor m (union (map snd r))).
  rewrite N.lor_assoc. repeat split; try congruence.
  intros _. destruct r as [|x r]; [rewrite B by reflexivity; exact N1 | apply A; discriminate].
Qed.
