(** C141: the generator chosen with -g. *)
From Verif Require Import Base BaseLemmas FileModel CliModel CliSpec CliLemmas CliLemmas2 PropCli2 PropCli3.
Open Scope N_scope.

(** [rngs]: the names of the generators in the 1000 slots of the table. *)
Definition table := list (option (list N)).
(** The first generator called [s] has the number [i]. *)
Definition generator_named (rngs : table) (s : list N) (i : nat) : Prop :=
  nth_error rngs i = Some (Some s) /\ forall k, (k < i)%nat -> nth_error rngs k <> Some (Some s).
(** The file generators need a file. *)
Definition wants_file (s : list N) : Prop := exists t, s = bytes_of "file_input" ++ t.

Lemma starts_app p : forall s, starts_with p s = true <-> exists t, s = p ++ t.
Proof.
  induction p as [|x p IH]; intro s; cbn [starts_with app]; [split; [intros _; now exists s|reflexivity]|].
  destruct s as [|y s]; [split; [discriminate|intros (t & E); discriminate]|].
  rewrite andb_true_iff, N.eqb_eq, IH. split.
  - intros (-> & t & ->). now exists t.
  - intros (t & E). injection E as -> ->. split; [reflexivity|now exists t].
Qed.
Lemma alone s : exists c1, parsecl [Optg s] = Ok c1 /\ c_gens c1 =
  (let (z, rest) := strtol s in
   if same_start s rest then mkgens (to_int z) (firstn 128 s :: repeat [] 99) (13 :: repeat 0 99) 1 (repeat 0 100) 0 0
   else mkgens (to_int z) (repeat [] 100) (u32_of_Z (to_int z) :: repeat 0 99) 1 (repeat 0 100) 0 0).
Proof.
  unfold parsecl. cbn [parse_options parse_option]. unfold option_g. destruct (strtol s) as [z rest]. destruct (same_start s rest); cbn [bind].
  - change (aset (g_names (c_gens cli0)) (Z.of_N (g_vcount (c_gens cli0))) (strncpy name_length s)) with (Ok (firstn 128 s :: repeat [] 99)).
    eexists. split; reflexivity.
  - change (aset (g_numbs (c_gens cli0)) (Z.of_N (g_vcount (c_gens cli0))) (u32_of_Z (to_int z))) with (Ok (u32_of_Z (to_int z) :: repeat 0 99)).
    eexists. split; reflexivity.
Qed.
Definition checked (rngs : table) (f : bool) (i : Z) : outcome (option Z) :=
  do t <- aget rngs i ;;
  match t with
  | Some nm => if starts_with (bytes_of "file_input") nm && negb f then Ok None else Ok (Some i)
  | None => UB "null pointer"
  end.
Lemma checked_ok rngs f i nm : nth_error rngs i = Some (Some nm) ->
  (f = true \/ ~ wants_file nm -> checked rngs f (Z.of_nat i) = Ok (Some (Z.of_nat i))) /\
  (f = false -> wants_file nm -> checked rngs f (Z.of_nat i) = Ok None).
Proof.
  intro E. assert (G : aget rngs (Z.of_nat i) = Ok (Some nm)).
  { unfold aget. rewrite (proj2 (Z.ltb_ge _ _)) by lia. rewrite Nat2Z.id, E. reflexivity. }
  unfold checked. rewrite G. cbn [bind]. unfold wants_file. rewrite <- starts_app. destruct (starts_with _ nm).
  - split; [intros [-> |H]; [reflexivity|congruence]|intros -> _; reflexivity].
  - split; [reflexivity|discriminate].
Qed.
Lemma find_rng_spec s : (length s < 20)%nat -> forall rngs i, match find_rng rngs i s with
  | Some k => exists j, k = (i + Z.of_nat j)%Z /\ generator_named rngs s j
  | None => forall j, ~ generator_named rngs s j
  end.
Proof.
  intro L. induction rngs as [|o rngs IH]; intro i; cbn [find_rng]; [intros j (H & _); destruct j; discriminate|].
  assert (G : o <> Some s -> match find_rng rngs (i + 1) s with
    | Some k => exists j, k = (i + Z.of_nat j)%Z /\ generator_named (o :: rngs) s j
    | None => forall j, ~ generator_named (o :: rngs) s j end).
  { intro D. specialize (IH (i + 1)%Z). destruct (find_rng rngs (i + 1) s).
    - destruct IH as (j & -> & J1 & J2). exists (S j). split; [lia|]. split; [exact J1|]. intros [|k] K; cbn [nth_error]; [congruence|apply J2; lia].
    - intros [|j] (J1 & J2); cbn [nth_error] in J1; [congruence|]. apply (IH j). split; [exact J1|]. intros k K. apply (J2 (S k)). lia. }
  destruct o as [nm|]; [|apply G; discriminate]. destruct (strneq 20 nm s) eqn:E.
  - exists 0%nat. split; [lia|]. apply strneq_eq in E; [|lia]. subst. split; [reflexivity|]. intros; lia.
  - apply G. intros [= ->]. rewrite strneq_refl in E. discriminate.
Qed.
Lemma named_unique rngs s i j : generator_named rngs s i -> generator_named rngs s j -> i = j.
Proof. intros (A & B) (C & D). destruct (Nat.lt_trichotomy i j) as [T|[T|T]]; [exfalso; apply (D i T A)|exact T|exfalso; apply (B j T C)]. Qed.
Lemma select_named rngs g f n0 s : nth 0 (g_numbs g) 0 = n0 -> length (g_numbs g) = 100%nat -> length (g_names g) = 100%nat -> nth 0 (g_names g) [] = s -> s <> [] -> n0 < 1000 ->
  select_rng rngs g f = match find_rng rngs 0 s with Some i => checked rngs f i | None => Ok None end.
Proof.
  intros N0 L1 L2 S0 NE B. unfold select_rng. rewrite (aget_ok (g_numbs g) 0 0) by lia. cbn [bind]. change (Z.to_nat 0) with 0%nat. rewrite N0.
  rewrite to_int_small by lia. rewrite (proj2 (Z.ltb_ge _ _)) by lia. unfold MAXRNGS. rewrite (proj2 (Z.leb_gt _ _)) by lia. cbn [orb].
  rewrite (aget_ok (g_names g) 0 []) by lia. cbn [bind]. change (Z.to_nat 0) with 0%nat. rewrite S0. destruct s; [congruence|]. cbn [bind]. reflexivity.
Qed.

(** ** By number *)

(** The number given first with -g chooses the generator of that number.  When
    there is none, when it has no name, or when it needs a file and there is
    none, there is no generator (the program lists them and stops). *)
Theorem C141_by_number rngs f os c s rest n : parsecl os = Ok c -> g_args os = s :: rest -> (length rest <= 99)%nat ->
  numeral s n -> n < 2 ^ 31 -> length rngs = 1000%nat ->
  (forall nm, nth_error rngs (N.to_nat n) = Some (Some nm) -> nm <> [] -> f = true \/ ~ wants_file nm -> select_rng rngs (c_gens c) f = Ok (Some (Z.of_N n))) /\
  (forall nm, nth_error rngs (N.to_nat n) = Some (Some nm) -> nm = [] \/ f = false /\ wants_file nm -> select_rng rngs (c_gens c) f = Ok None) /\
  (nth_error rngs (N.to_nat n) = None \/ nth_error rngs (N.to_nat n) = Some None -> select_rng rngs (c_gens c) f = Ok None).
Proof.
  intros H E L Hn B LR. destruct (alone s) as (c1 & P1 & G1). rewrite (C91_combined_refuted rngs f os c s rest c1 H E L P1), G1.
  rewrite (strtol_numeral _ _ Hn), (same_start_numeral _ _ Hn), clamp_small, to_int_small by lia.
  unfold select_rng. cbn [g_numbs g_names]. change (aget (u32_of_Z (Z.of_N n) :: repeat 0 99) 0) with (Ok (u32_of_Z (Z.of_N n))). cbn [bind].
  assert (U : u32_of_Z (Z.of_N n) = n) by (unfold u32_of_Z; rewrite Z.mod_small by lia; apply N2Z.id). rewrite U.
  rewrite to_int_small by lia. rewrite (proj2 (Z.ltb_ge _ _)) by lia. cbn [orb]. change (aget (repeat [] 100) 0) with (Ok ([] : list N)). cbn [bind].
  unfold MAXRNGS. destruct (Z.leb_spec 1000 (Z.of_N n)) as [Q|Q].
  - assert (X : nth_error rngs (N.to_nat n) = None) by (apply nth_error_None; lia).
    split; [intros nm D; congruence|]. split; [intros nm D; congruence|reflexivity].
  - assert (X : exists o, nth_error rngs (N.to_nat n) = Some o /\ aget rngs (Z.of_N n) = Ok o).
    { destruct (nth_error rngs (N.to_nat n)) as [o|] eqn:X; [|apply nth_error_None in X; lia]. exists o. split; [reflexivity|].
      unfold aget. rewrite (proj2 (Z.ltb_ge _ _)) by lia. replace (Z.to_nat (Z.of_N n)) with (N.to_nat n) by lia. now rewrite X. }
    destruct X as (o & X & Y). rewrite X, Y. cbn [bind]. destruct o as [nm|].
    + destruct (checked_ok rngs f (N.to_nat n) nm X) as (K1 & K2). rewrite N_nat_Z in K1, K2. unfold checked in K1, K2. rewrite Y in K1, K2. cbn [bind] in K1, K2.
      destruct nm as [|a nm].
      * split; [intros nm [= <-] D; congruence|]. split; [reflexivity|intros [D|D]; discriminate].
      * cbn [bind]. rewrite Y. cbn [bind]. split; [intros nm' [= <-] _ D; exact (K1 D)|]. split; [|intros [D|D]; discriminate].
        intros nm' [= <-] [D|(D1 & D2)]; [discriminate|exact (K2 D1 D2)].
    + split; [intros nm D; congruence|]. split; [intros nm D; congruence|reflexivity].
Qed.

(** ** By name *)

(** The name given first chooses the first generator of that name. *)
Theorem C141_by_name rngs f os c s rest : parsecl os = Ok c -> g_args os = s :: rest -> (length rest <= 99)%nat ->
  word s -> (length s < 20)%nat ->
  (forall i, generator_named rngs s i -> f = true \/ ~ wants_file s -> select_rng rngs (c_gens c) f = Ok (Some (Z.of_nat i))) /\
  ((forall i, ~ generator_named rngs s i) \/ f = false /\ wants_file s -> select_rng rngs (c_gens c) f = Ok None).
Proof.
  intros H E L W LS. destruct (alone s) as (c1 & P1 & G1). rewrite (C91_combined_refuted rngs f os c s rest c1 H E L P1), G1.
  rewrite (strtol_word _ W). unfold same_start. rewrite strneq_refl, firstn_all2 by lia.
  rewrite (select_named _ _ _ 13 s); [|reflexivity|reflexivity|reflexivity|reflexivity|destruct W as (a & t & -> & _); discriminate|lia].
  pose proof (find_rng_spec s LS rngs 0%Z) as F. destruct (find_rng rngs 0 s) as [k|].
  - destruct F as (j & -> & J). rewrite Z.add_0_l. destruct (checked_ok rngs f j s (proj1 J)) as (K1 & K2). split.
    + intros i I D. rewrite (named_unique _ _ _ _ I J). exact (K1 D).
    + intros [D|(D1 & D2)]; [exfalso; exact (D j J)|exact (K2 D1 D2)].
  - split; [intros i I; exfalso; exact (F i I)|reflexivity].
Qed.
(** Without -g it is generator 13 (mt19937 in dieharder's table). *)
Theorem C141_default rngs f os c : parsecl os = Ok c -> g_args os = [] ->
  forall nm, nth_error rngs 13 = Some (Some nm) -> nm <> [] -> ~ wants_file nm -> select_rng rngs (c_gens c) f = Ok (Some 13%Z).
Proof.
  intros H E nm X NE NW. apply gens_of in H as (c' & P & ->). destruct (before_head _ _ _ P E) as (A & B & C).
  unfold select_rng. rewrite A, B. change (aget (g_numbs (c_gens cli0)) 0) with (Ok 13). cbn [bind]. change (to_int (Z.of_N 13)) with 13%Z. unfold MAXRNGS.
  change ((13 <? 0) || (1000 <=? 13))%Z with false. cbv iota. change (aget (g_names (c_gens cli0)) 0) with (Ok ([] : list N)). cbn [bind].
  destruct (checked_ok rngs f 13 nm X) as (K1 & _). unfold checked in K1. change (Z.of_N 13) with (Z.of_nat 13).
  assert (Y : aget rngs (Z.of_nat 13) = Ok (Some nm)) by (unfold aget; change (Z.of_nat 13 <? 0)%Z with false; cbv iota; rewrite Nat2Z.id, X; reflexivity).
  rewrite Y in *. cbn [bind] in *. destruct nm as [|a nm]; [congruence|]. cbn [bind]. rewrite Y. cbn [bind]. apply K1. now right.
Qed.
(** A number followed by something else is taken as the number, whatever
    follows it. *)
Theorem C141_garbage_refuted : forall rngs f, exists c c1,
  parsecl [Optg (bytes_of "41-R_wichmann_hill")] = Ok c /\ parsecl [Optg (bytes_of "41")] = Ok c1 /\
  select_rng rngs (c_gens c) f = select_rng rngs (c_gens c1) f.
Proof. intros rngs f. eexists. eexists. split; [reflexivity|]. split; [reflexivity|]. apply select_head; reflexivity. Qed.

Example C141_ex : let rngs := map (fun s => Some (bytes_of s)) ["borosh13"; "cmrg"; "file_input"]%string ++ repeat None 997 in
  length rngs = 1000%nat /\ numeral (bytes_of "1") 1 /\ generator_named rngs (bytes_of "file_input") 2 /\ wants_file (bytes_of "file_input") /\
  (exists c, parsecl [OptAll; Optg (bytes_of "1"); Optg (bytes_of "0")] = Ok c /\ select_rng rngs (c_gens c) false = Ok (Some 1%Z)) /\
  (exists c, parsecl [Optg (bytes_of "file_input")] = Ok c /\ select_rng rngs (c_gens c) false = Ok None /\ select_rng rngs (c_gens c) true = Ok (Some 2%Z)).
Proof.
  split; [reflexivity|]. split. { split; [discriminate|]. split; [|reflexivity]. repeat constructor; discriminate. }
  split. { split; [reflexivity|]. intros [|[|k]] K; [discriminate|discriminate|lia]. }
  split; [now exists []|]. split; eexists; (split; [reflexivity|]); [vm_compute; reflexivity|split; vm_compute; reflexivity].
Qed.
Print Assumptions C141_by_number.
Print Assumptions C141_by_name.
Print Assumptions C141_default.
Print Assumptions C141_garbage_refuted.
