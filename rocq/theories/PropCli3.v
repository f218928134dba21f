(** C90: many generators or seeds on the command line.  C91: several
    generators and their seeds.  C92: loading the table of tests more than
    once. *)
From Verif Require Import Base BaseLemmas FileModel CliModel CliSpec CliLemmas CliLemmas2.
Open Scope N_scope.

(** ** C90 *)

(** The vectors keep their length and the counts are those of the options. *)
Definition counts (g : gens) (v s : nat) : Prop :=
  length (g_names g) = 100%nat /\ length (g_numbs g) = 100%nat /\
  length (g_seeds g) = 100%nat /\ g_vcount g = N.of_nat v /\ g_scount g = N.of_nat s.

Lemma add32_1 n : (n < 200)%nat -> add32 (N.of_nat n) 1 = N.of_nat (S n).
Proof.
  intros H. unfold add32, w32. rewrite N.mod_small; [lia|].
  change (2 ^ 32) with 4294967296. lia.
Qed.

Lemma option_g_ok g v k s : counts g v k -> (v < 100)%nat ->
  exists g', option_g g s = Ok g' /\ counts g' (S v) k.
Proof.
  intros (A & B & C & D & E) L. unfold option_g. destruct (strtol s) as [z rest].
  rewrite D. destruct (same_start s rest).
  - rewrite aset_ok by lia. cbn [bind]. eexists. split; [reflexivity|].
    repeat split; cbn; rewrite ?set_nth_length; auto. rewrite add32_1 by lia. reflexivity.
  - rewrite aset_ok by lia. cbn [bind]. eexists. split; [reflexivity|].
    repeat split; cbn; rewrite ?set_nth_length; auto. rewrite add32_1 by lia. reflexivity.
Qed.
Lemma option_S_ok g v k s : counts g v k -> (k < 100)%nat ->
  exists g', option_S g s = Ok g' /\ counts g' v (S k).
Proof.
  intros (A & B & C & D & E) L. unfold option_S.
  rewrite E. rewrite aset_ok by lia. cbn [bind]. eexists. split; [reflexivity|].
  repeat split; cbn; rewrite ?set_nth_length; auto. rewrite add32_1 by lia. reflexivity.
Qed.

(** Nothing undefined happens with at most 100 -g and at most 100 -S options,
    whatever their arguments and whatever the other options. *)
Theorem C90_safe os : (length (g_args os) <= 100)%nat -> (length (S_args os) <= 100)%nat ->
  (exists c, parsecl os = Ok c) \/ (exists code, parsecl os = Exit code).
Proof.
  intros G S0.
  assert (P : forall os c v k, counts (c_gens c) v k ->
     (v + length (g_args os) <= 100)%nat -> (k + length (S_args os) <= 100)%nat ->
     (exists c', parse_options c os = Ok c') \/ (exists code, parse_options c os = Exit code)).
  { clear. induction os as [|o t IH]; intros c v k I G S0; [left; eexists; reflexivity|].
    unfold g_args, S_args in *. cbn [parse_options flat_map] in *.
    rewrite app_length in G, S0.
    assert (D : forall c', c_gens c' = c_gens c ->
      parse_option c o = Ok c' ->
      (exists c'', bind (parse_option c o) (fun c' => parse_options c' t) = Ok c'') \/
      (exists code, bind (parse_option c o) (fun c' => parse_options c' t) = Exit code)).
    { intros c' X Y. rewrite Y. cbn [bind]. apply (IH c' v k); [rewrite X; exact I| |]; lia. }
    destruct o; cbn [parse_option length] in *;
      try (match goal with
           | |- (exists _, bind (Ok ?x) _ = _) \/ _ => apply (D x); reflexivity
           end).
    - destruct (option_D (c_flags c) optarg) as [f|e|w|] eqn:E; cbn [bind] in *.
      + apply (IH _ v k); [exact I | |]; lia.
      + right. eauto.
      + exfalso. clear - E. unfold option_D in E. destruct (c_flags c) as [t0 z0]. destruct (strtol optarg) as [z [|]];
          cbn [bind] in E.
        * destruct (to_int z =? 0)%Z; discriminate.
        * destruct (find_field _ _ _) as [[|]|]; cbn [bind] in E; try discriminate;
            destruct (_ =? 0)%Z in E; discriminate.
      + exfalso. clear - E. unfold option_D in E. destruct (c_flags c) as [t0 z0]. destruct (strtol optarg) as [z [|]];
          cbn [bind] in E.
        * destruct (to_int z =? 0)%Z; discriminate.
        * destruct (find_field _ _ _) as [[|]|]; cbn [bind] in E; try discriminate;
            destruct (_ =? 0)%Z in E; discriminate.
    - destruct (option_g_ok _ v k optarg I) as (g' & E & I'); [lia|]. rewrite E. cbn [bind].
      apply (IH _ (S v) k); [exact I' | |]; lia.
    - destruct (option_S_ok _ v k optarg I) as (g' & E & I'); [lia|]. rewrite E. cbn [bind].
      apply (IH _ v (S k)); [exact I' | |]; lia.
    - right. eexists. reflexivity. }
  unfold parsecl. destruct os as [|o t]; [right; eauto|].
  destruct (P (o :: t) cli0 0%nat 0%nat) as [[c E]|[code E]]; auto.
  { repeat split. }
  - rewrite E. cbn [bind]. repeat (match goal with |- context [if ?b then _ else _] => destruct b end; eauto).
  - rewrite E. cbn [bind]. eauto.
Qed.

(** The 101st -g writes past the end of the vectors; so does the 101st -S. *)
Theorem C90_generators_refuted : forall args s, length args = 100%nat ->
  exists w, parsecl (map Optg (args ++ [s])) = UB w.
Proof.
  intros args s L.
  assert (P : forall l c v, counts (c_gens c) v 0 -> (v + length l <= 100)%nat ->
     exists c', parse_options c (map Optg l) = Ok c' /\ counts (c_gens c') (v + length l) 0).
  { clear. induction l as [|x t IH]; intros c v I G.
    { exists c. cbn. rewrite Nat.add_0_r. auto. }
    cbn [map parse_options parse_option length] in *.
    destruct (option_g_ok _ v 0 x I) as (g' & E & I'); [lia|]. rewrite E. cbn [bind].
    destruct (IH (set_gens c g') (S v) I') as (c' & X & Y); [lia|]. exists c'. split; auto.
    replace (v + S (length t))%nat with (S v + length t)%nat by lia. exact Y. }
  destruct (P args cli0 0%nat) as (c & E & I); [repeat split | lia |].
  rewrite map_app. unfold parsecl.
  destruct (map Optg args ++ map Optg [s]) eqn:X; [destruct args; discriminate|]. rewrite <- X.
  rewrite parse_app, E. cbn [bind map parse_options parse_option].
  rewrite L in I. destruct I as (A & B & _ & D & _). cbn in D.
  unfold option_g. destruct (strtol s) as [z rest]. rewrite D.
  assert (U : forall T (v : list T) a, length v = 100%nat -> aset v (Z.of_N 100) a = UB "array index").
  { intros T v a Ll. unfold aset. rewrite Ll. reflexivity. }
  destruct (same_start s rest); rewrite U by assumption; cbn [bind]; eauto.
Qed.

Theorem C90_seeds_refuted : forall args s, length args = 100%nat ->
  exists w, parsecl (map OptS (args ++ [s])) = UB w.
Proof.
  intros args s L.
  assert (P : forall l c v, counts (c_gens c) 0 v -> (v + length l <= 100)%nat ->
     exists c', parse_options c (map OptS l) = Ok c' /\ counts (c_gens c') 0 (v + length l)).
  { clear. induction l as [|x t IH]; intros c v I G.
    { exists c. cbn. rewrite Nat.add_0_r. auto. }
    cbn [map parse_options parse_option length] in *.
    destruct (option_S_ok _ 0 v x I) as (g' & E & I'); [lia|]. rewrite E. cbn [bind].
    destruct (IH (set_gens c g') (S v) I') as (c' & X & Y); [lia|]. exists c'. split; auto.
    replace (v + S (length t))%nat with (S v + length t)%nat by lia. exact Y. }
  destruct (P args cli0 0%nat) as (c & E & I); [repeat split | lia |].
  rewrite map_app. unfold parsecl.
  destruct (map OptS args ++ map OptS [s]) eqn:X; [destruct args; discriminate|]. rewrite <- X.
  rewrite parse_app, E. cbn [bind map parse_options parse_option].
  rewrite L in I. destruct I as (_ & _ & A & _ & D). cbn in D.
  unfold option_S. rewrite D. unfold aset. rewrite A.
  change (Z.of_N 100 <? 0)%Z with false. change (Z.to_nat (Z.of_N 100) <? 100)%nat with false.
  cbv iota. cbn [bind]. eauto.
Qed.

Example C90_safe_case : (exists c, parsecl [OptS (bytes_of "7"); Optg (bytes_of "13"); OptAll] = Ok c).
Proof. eexists. reflexivity. Qed.
Example C90_refuted_case : exists w, parsecl (map Optg (repeat (bytes_of "13") 101)) = UB w.
Proof. apply (C90_generators_refuted (repeat (bytes_of "13") 100) (bytes_of "13")). reflexivity. Qed.

(** ** C91 *)

(** The generator entries that decide what is tested. *)
Definition head_of (g : gens) : N * list N := (nth 0 (g_numbs g) 0, nth 0 (g_names g) []).

Lemma select_head rngs g g' f : head_of g = head_of g' ->
  length (g_numbs g) = 100%nat -> length (g_numbs g') = 100%nat ->
  length (g_names g) = 100%nat -> length (g_names g') = 100%nat ->
  select_rng rngs g f = select_rng rngs g' f.
Proof.
  intros H A B C D. unfold head_of in H. injection H as H1 H2. unfold select_rng.
  rewrite !(aget_ok (g_numbs _) 0 0) by lia. cbn [bind].
  rewrite !(aget_ok (g_names _) 0 []) by lia. change (Z.to_nat 0) with 0%nat.
  rewrite H1, H2. reflexivity.
Qed.

Lemma nth_set_other {A} (l : list A) i a d : (0 < i)%nat -> nth 0 (set_nth l i a) d = nth 0 l d.
Proof. intros H. destruct l; [reflexivity|]. destruct i; [lia|]. reflexivity. Qed.

(** Once a -g option has been given, further ones do not change the generator
    tested. *)
Lemma later_head os : forall c c' v, parse_options c os = Ok c' ->
  length (g_names (c_gens c)) = 100%nat -> length (g_numbs (c_gens c)) = 100%nat ->
  g_vcount (c_gens c) = N.of_nat v -> (0 < v)%nat -> (v + length (g_args os) < 200)%nat ->
  head_of (c_gens c') = head_of (c_gens c) /\
  length (g_names (c_gens c')) = 100%nat /\ length (g_numbs (c_gens c')) = 100%nat.
Proof.
  induction os as [|o t IH]; intros c c' v P A B V V0 L.
  { cbn in P. injection P as <-. auto. }
  unfold g_args in *. cbn [parse_options flat_map] in *. rewrite app_length in L.
  destruct (parse_option c o) as [c1|?|?|] eqn:Q; cbn [bind] in P; try discriminate.
  assert (Same : g_names (c_gens c1) = g_names (c_gens c) -> g_numbs (c_gens c1) = g_numbs (c_gens c) ->
     g_vcount (c_gens c1) = g_vcount (c_gens c) ->
     head_of (c_gens c') = head_of (c_gens c) /\
     length (g_names (c_gens c')) = 100%nat /\ length (g_numbs (c_gens c')) = 100%nat).
  { intros X Y Z. destruct (IH c1 c' v P) as (H1 & H2 & H3); rewrite ?X, ?Y, ?Z; auto; [lia|].
    unfold head_of in *. rewrite X, Y in H1. auto. }
  destruct o; cbn in Q;
    try (injection Q as <-; apply Same; reflexivity); try discriminate.
  - destruct (option_D (c_flags c) optarg); cbn in Q; try discriminate. injection Q as <-.
    apply Same; reflexivity.
  - destruct (option_g (c_gens c) optarg) as [g|?|?|] eqn:E; cbn in Q; try discriminate.
    injection Q as <-.
    assert (G : head_of g = head_of (c_gens c) /\ length (g_names g) = 100%nat /\
                length (g_numbs g) = 100%nat /\ g_vcount g = N.of_nat (S v)).
    { unfold option_g in E. destruct (strtol optarg) as [z r]. rewrite V in E.
      assert (AS : forall T (l l' : list T) a, aset l (Z.of_N (N.of_nat v)) a = Ok l' ->
                l' = set_nth l v a).
      { intros T l l' a X. unfold aset in X. destruct (_ <? 0)%Z; [discriminate|].
        destruct (_ <? _)%nat; [|discriminate].
        injection X as <-. f_equal. lia. }
      cbn [length] in L. destruct (same_start optarg r).
      - destruct (aset (g_names (c_gens c)) _ _) eqn:W; cbn [bind] in E; try discriminate.
        apply AS in W. injection E as <-. unfold head_of. cbn. rewrite W, nth_set_other, set_nth_length by lia.
        rewrite add32_1 by lia. auto.
      - destruct (aset (g_numbs (c_gens c)) _ _) eqn:W; cbn [bind] in E; try discriminate.
        apply AS in W. injection E as <-. unfold head_of. cbn. rewrite W, nth_set_other, set_nth_length by lia.
        rewrite add32_1 by lia. auto. }
    destruct G as (G1 & G2 & G3 & G4). cbn [length] in L.
    destruct (IH (set_gens c g) c' (S v) P) as (H1 & H2 & H3); cbn; auto; [lia..|].
    split; [|auto]. rewrite H1. exact G1.
  - unfold option_S in Q. destruct (aset _ _ _) in Q; cbn in Q; try discriminate.
    injection Q as <-. apply Same; reflexivity.
Qed.

Lemma before_head os : forall c c', parse_options c os = Ok c' -> g_args os = [] ->
  g_names (c_gens c') = g_names (c_gens c) /\ g_numbs (c_gens c') = g_numbs (c_gens c) /\
  g_vcount (c_gens c') = g_vcount (c_gens c).
Proof.
  induction os as [|o t IH]; intros c c' P G.
  { cbn in P. injection P as <-. auto. }
  unfold g_args in *. cbn [parse_options flat_map] in *. apply app_eq_nil in G as [G1 G2].
  destruct (parse_option c o) as [c1|?|?|] eqn:Q; cbn [bind] in P; try discriminate.
  destruct (IH c1 c' P G2) as (A & B & C). rewrite A, B, C.
  destruct o; cbn in Q; try (injection Q as <-; auto); try discriminate.
  - destruct (option_D (c_flags c) optarg); cbn in Q; try discriminate. injection Q as <-. auto.
  - unfold option_S in Q. destruct (aset _ _ _) in Q; cbn in Q; try discriminate.
    injection Q as <-. auto.
Qed.

Lemma first_g : forall os s rest, g_args os = s :: rest ->
  exists pre post, os = pre ++ Optg s :: post /\ g_args pre = [] /\ g_args post = rest.
Proof.
  induction os as [|o t IH]; intros s rest H; [discriminate|].
  assert (D : (exists x, o = Optg x) \/ g_args [o] = []) by (destruct o; cbn; eauto).
  destruct D as [[x ->]|D].
  - unfold g_args in H. cbn in H. injection H as -> H. exists [], t. auto.
  - assert (H' : g_args t = s :: rest).
    { change (g_args (o :: t)) with (match o with Optg s => [s] | _ => [] end ++ g_args t) in H.
      unfold g_args in D. cbn [flat_map] in D. rewrite app_nil_r in D. rewrite D in H. exact H. }
    destruct (IH s rest H') as (pre & post & -> & A & B). exists (o :: pre), post. split; [reflexivity|].
    split; auto. unfold g_args in *. cbn [flat_map] in *. rewrite app_nil_r in D. rewrite D. exact A.
Qed.

Lemma gens_of os c : parsecl os = Ok c ->
  exists c', parse_options cli0 os = Ok c' /\ c_gens c = c_gens c'.
Proof.
  intros H. apply parsecl_inv in H as (c' & P & ->). exists c'. split; auto.
  destruct (_ =? 0)%Z; reflexivity.
Qed.

(** Whatever other generators are given, the generator tested is the one the
    first -g option alone would select: they are not combined. *)
Theorem C91_combined_refuted rngs f os c s rest c1 :
  parsecl os = Ok c -> g_args os = s :: rest -> (length rest <= 99)%nat ->
  parsecl [Optg s] = Ok c1 ->
  select_rng rngs (c_gens c) f = select_rng rngs (c_gens c1) f.
Proof.
  intros H G L H1. apply gens_of in H as (c' & P & ->). apply gens_of in H1 as (c1' & P1 & ->).
  destruct (first_g _ _ _ G) as (pre & post & -> & A & B).
  rewrite parse_app in P. destruct (parse_options cli0 pre) as [c2|?|?|] eqn:E; cbn [bind] in P; try discriminate.
  destruct (before_head _ _ _ E A) as (X & Y & Z). cbn [c_gens cli0 gens0 g_names g_numbs g_vcount] in X, Y, Z.
  cbn [parse_options parse_option bind] in P, P1.
  assert (F : forall d e, g_names (c_gens d) = repeat [] 100 -> g_numbs (c_gens d) = 13 :: repeat 0 99 ->
    g_vcount (c_gens d) = 0 ->
    option_g (c_gens d) s = Ok e ->
    g_names e = (if same_start s (snd (strtol s)) then strncpy name_length s :: repeat [] 99 else repeat [] 100) /\
    g_numbs e = (if same_start s (snd (strtol s)) then 13 :: repeat 0 99
                 else u32_of_Z (to_int (fst (strtol s))) :: repeat 0 99) /\
    g_vcount e = 1).
  { intros d e D1 D2 D3 O. unfold option_g in O. rewrite D1, D2, D3 in O.
    destruct (strtol s) as [z r]. cbn [fst snd]. destruct (same_start s r); cbn [bind] in O.
    - change (aset (repeat [] 100) (Z.of_N 0) (strncpy name_length s))
        with (Ok (strncpy name_length s :: repeat [] 99)) in O.
      cbn [bind] in O. injection O as <-. auto.
    - change (aset (13 :: repeat 0 99) (Z.of_N 0) (u32_of_Z (to_int z)))
        with (Ok (u32_of_Z (to_int z) :: repeat 0 99)) in O.
      cbn [bind] in O. injection O as <-. auto. }
  destruct (option_g (c_gens c2) s) as [e|?|?|] eqn:O; cbn [bind] in P; try discriminate.
  destruct (option_g (c_gens cli0) s) as [e1|?|?|] eqn:O1; cbn [bind] in P1; try discriminate.
  destruct (F c2 e X Y Z O) as (E1 & E2 & E3).
  destruct (F cli0 e1 eq_refl eq_refl eq_refl O1) as (F1 & F2 & F3).
  injection P1 as <-. cbn [c_gens set_gens].
  assert (LN : length (g_names e) = 100%nat) by (rewrite E1; destruct (same_start _ _); reflexivity).
  assert (LB : length (g_numbs e) = 100%nat) by (rewrite E2; destruct (same_start _ _); reflexivity).
  destruct (later_head post (set_gens c2 e) c' 1%nat P) as (Q1 & Q2 & Q3); cbn [c_gens set_gens]; auto.
  { rewrite B. lia. }
  apply select_head; auto.
  - rewrite Q1. unfold head_of. cbn [c_gens set_gens]. rewrite E1, E2, F1, F2. reflexivity.
  - rewrite F2. destruct (same_start _ _); reflexivity.
  - rewrite F1. destruct (same_start _ _); reflexivity.
Qed.

(** The seed given after a generator is not what is stored for it: the number
    of the generator is. *)
Theorem C91_seeds_refuted : exists c,
  parsecl [Optg (bytes_of "5"); OptS (bytes_of "700"); Optg (bytes_of "6"); OptS (bytes_of "900")] = Ok c /\
  firstn 2 (g_seeds (c_gens c)) = [5; 6] /\ g_Seed (c_gens c) = 900.
Proof. eexists. split; [reflexivity|]. split; reflexivity. Qed.

Example C91_case : exists c c1,
  parsecl [OptAll; Optg (bytes_of "2"); Optg (bytes_of "XOR")] = Ok c /\
  parsecl [Optg (bytes_of "2")] = Ok c1 /\
  forall f, select_rng (map (fun s => Some (bytes_of s)) ["a"; "b"; "c"]%string) (c_gens c) f = Ok (Some 2%Z).
Proof.
  eexists. eexists. split; [reflexivity|]. split; [reflexivity|]. intros f. reflexivity.
Qed.

(** ** C92 *)

(** The table of tests loaded [k] times. *)
Fixpoint load (k : nat) (r : registry) : outcome registry :=
  match k with
  | O => Ok r
  | S j => do r' <- load j r ;; dieharder_test_types r'
  end.

Lemma load_ok k : (k < 1000)%nat ->
  load (S k) registry0 = Ok (mkreg standard 18 (3 * N.of_nat (S k)) (12 * N.of_nat (S k)) 0).
Proof.
  assert (A : forall l n, n + N.of_nat (length l) < 4294967296 ->
    plus_tests n l = n + N.of_nat (length l)).
  { induction l as [|x l IHl]; intros n H; [cbn; lia|].
    cbn [length] in H. change (plus_tests n (x :: l)) with (plus_tests (add32 n 1) l).
    assert (E : add32 n 1 = n + 1).
    { unfold add32, w32. change (2 ^ 32) with 4294967296. rewrite N.mod_small; lia. }
    rewrite E, IHl by lia. cbn [length]. lia. }
  assert (A3 : forall n, n < 4000000000 -> plus_tests n sts_tests = n + 3).
  { intros n H. apply A. cbn. lia. }
  assert (A12 : forall n, n < 4000000000 -> plus_tests n other_tests = n + 12).
  { intros n H. apply A. cbn. lia. }
  induction k as [|k IH]; intros H.
  { cbn [load bind]. rewrite test_types_ok by (vm_compute; reflexivity). reflexivity. }
  change (load (S (S k)) registry0) with (do r' <- load (S k) registry0 ;; dieharder_test_types r').
  rewrite IH by lia. cbn [bind]. rewrite test_types_ok by reflexivity. cbn [r_sts r_other r_user].
  rewrite A3, A12 by lia. f_equal. f_equal; lia.
Qed.

Lemma numbers_more a n m : numbers a (n + m) = numbers a n ++ numbers (a + Z.of_N n) m.
Proof.
  unfold numbers. replace (N.to_nat (n + m)) with (N.to_nat n + N.to_nat m)%nat by lia.
  rewrite seq_app, map_app. f_equal. cbn [Nat.add].
  rewrite <- (Nat.add_0_r (N.to_nat n)) at 1. generalize (N.to_nat m) as j. generalize 0%nat as i.
  intros i j. revert i. induction j as [|j IH]; intros i; cbn [seq map]; [reflexivity|].
  f_equal; [lia|]. replace (S (N.to_nat n + i)) with (N.to_nat n + S i)%nat by lia. apply IH.
Qed.

(** Loading it up to 33 times changes nothing. *)
Theorem C92_reload_partial k nt : (1 <= k <= 33)%nat -> exists r r1,
  load k registry0 = Ok r /\ load 1 registry0 = Ok r1 /\ schedule r nt = schedule r1 nt.
Proof.
  intros H. destruct k as [|k]; [lia|].
  eexists. eexists. split; [apply load_ok; lia|]. split; [apply (load_ok 0); lia|].
  assert (Q : forall s o, is_registered (mkreg standard 18 s o 0) = is_registered (mkreg standard 18 0 0 0)) by reflexivity.
  assert (N1 : forall a m, (forall x, (a <= x < a + Z.of_N m)%Z -> is_registered (mkreg standard 18 0 0 0) x = false) ->
    filter (is_registered (mkreg standard 18 0 0 0)) (numbers a m) = []).
  { intros a m X. assert (Y : forall x, In x (numbers a m) -> is_registered (mkreg standard 18 0 0 0) x = false).
    { intros x I. apply X. unfold numbers in I. apply in_map_iff in I as (i & <- & I). apply in_seq in I. lia. }
    revert Y. generalize (numbers a m). induction l as [|x l IH]; intros Y; [reflexivity|].
    cbn [filter]. rewrite (Y x) by (left; reflexivity). apply IH. intros z Z. apply Y. right. exact Z. }
  assert (R : forall x, (103 <= x < 200 \/ 212 <= x)%Z -> is_registered (mkreg standard 18 0 0 0) x = false).
  { intros x X. unfold is_registered. cbn [r_types].
    destruct (Z.lt_ge_cases x 1000) as [B|B].
    - assert (C : forallb (fun i => match nth_error standard i with Some (Some _) => false | _ => true end)
        (seq 103 97 ++ seq 212 788) = true) by (vm_compute; reflexivity).
      rewrite forallb_forall in C. specialize (C (Z.to_nat x)).
      destruct (nth_error standard (Z.to_nat x)) as [[]|]; auto.
      assert (false = true); [|discriminate]. apply C. apply in_or_app.
      destruct X as [X|X]; [left|right]; apply in_seq; lia.
    - assert (nth_error standard (Z.to_nat x) = None) as ->; [|reflexivity].
      apply nth_error_None. change (length standard) with 1000%nat. lia. }
  unfold schedule. cbn [r_diehard r_sts r_other]. rewrite !Q.
  f_equal. f_equal.
  - f_equal. replace (3 * N.of_nat (S k)) with (3 + 3 * N.of_nat k) by lia.
    rewrite numbers_more, filter_app, (N1 (100 + Z.of_N 3)%Z), app_nil_r; [reflexivity|].
    intros x X. apply R. lia.
  - f_equal. replace (12 * N.of_nat (S k)) with (12 + 12 * N.of_nat k) by lia.
    rewrite numbers_more, filter_app, (N1 (200 + Z.of_N 12)%Z), app_nil_r; [reflexivity|].
    intros x X. apply R. lia.
Qed.

(** After the 34th time -a runs rgb_bitdist twice, the first time with the
    ntuple 0; after the 67th it reads past the end of the table. *)
Theorem C92_twice_refuted : exists r, load 34 registry0 = Ok r /\
  filter (fun p => (fst p =? 200)%Z) (schedule r 0) =
  map (fun n => (200%Z, n)) (0 :: upto 1 12).
Proof.
  eexists. split; [apply (load_ok 33); lia|]. vm_compute. reflexivity.
Qed.
Lemma perform_total l : perform (fun _ _ => Ok tt) l = Ok tt.
Proof. induction l as [|[a b] l IH]; [reflexivity|]. exact IH. Qed.
Theorem C92_overrun_refuted nt : exists r, load 67 registry0 = Ok r /\
  exists w, run_all_tests (fun _ _ => Ok tt) r ([], nt) = UB w.
Proof.
  eexists. split; [apply (load_ok 66); lia|].
  set (r := mkreg _ _ _ _ _).
  unfold run_all_tests.
  rewrite (num_loop_does (fun _ _ => Ok tt) (execute_if (fun _ _ => Ok tt) r)
    (fun num => if is_registered r num then [(num, nt)] else []) nt).
  2: { intros k tr' K. change (N.to_nat (r_diehard r)) with 18%nat in K.
       rewrite execute_if_does by (reflexivity || lia). reflexivity. }
  unfold does. rewrite perform_total. cbn [bind fst snd].
  rewrite (num_loop_does (fun _ _ => Ok tt) (execute_if (fun _ _ => Ok tt) r)
    (fun num => if is_registered r num then [(num, nt)] else []) nt).
  2: { intros k tr' K. change (N.to_nat (r_sts r)) with 201%nat in K.
       rewrite execute_if_does by (reflexivity || lia). reflexivity. }
  unfold does. rewrite perform_total. cbn [bind fst snd].
  change (N.to_nat (r_other r)) with (800 + 4)%nat.
  assert (SP : forall body a b num st, num_loop body (a + b) num st =
    do st' <- num_loop body a num st ;; num_loop body b (num + Z.of_nat a) st').
  { intros body a. induction a as [|a IH]; intros b num st; cbn [num_loop Nat.add bind].
    - f_equal. lia.
    - destruct (body num st); cbn [bind]; auto. rewrite IH.
      destruct (num_loop body a (num + 1) a0); cbn [bind]; auto. f_equal. lia. }
  rewrite SP.
  rewrite (num_loop_does (fun _ _ => Ok tt) (run_other (fun _ _ => Ok tt) r)
    (fun num => if is_registered r num then map (fun n => (num, n)) (ntuples num nt) else []) nt).
  2: { intros k tr' K. rewrite run_other_does by (reflexivity || lia). reflexivity. }
  unfold does. rewrite perform_total. cbn [bind fst snd].
  change (200 + Z.of_nat 800)%Z with 1000%Z. cbn [num_loop].
  change (run_other (fun _ _ => Ok tt) r 1000) with (execute_if (fun _ _ => Ok tt) r 1000).
  unfold execute_if, registered, aget. change (1000 <? 0)%Z with false. cbv iota.
  change (nth_error (r_types r) (Z.to_nat 1000)) with (@None (option dtest)). cbn [bind]. eauto.
Qed.
Example C92_reload_case : exists r, load 2 registry0 = Ok r /\ length (schedule r 0) = 82%nat.
Proof. eexists. split; [apply (load_ok 1); lia|]. vm_compute. reflexivity. Qed.

Print Assumptions C90_safe.
Print Assumptions C90_generators_refuted.
Print Assumptions C90_seeds_refuted.
Print Assumptions C91_combined_refuted.
Print Assumptions C91_seeds_refuted.
Print Assumptions C92_reload_partial.
Print Assumptions C92_twice_refuted.
Print Assumptions C92_overrun_refuted.
