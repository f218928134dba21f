(** Properties C153 and C154: the table of generators and its listing. *)
From Verif Require Import Base BaseLemmas FileModel CliModel CliSpec CliLemmas CliLemmas2 PropCli2 PropCli3 PropChoose RngTableModel.
Open Scope Z_scope.

(** All generators of a table with their numbers, in order. *)
Fixpoint entries (k : Z) (t : slots) : list (Z * list N) :=
  match t with
  | [] => []
  | Some nm :: r => (k, nm) :: entries (k + 1) r
  | None :: r => entries (k + 1) r
  end.
Fixpoint numbered (k : Z) (l : list (list N)) : list (Z * list N) :=
  match l with [] => [] | nm :: r => (k, nm) :: numbered (k + 1) r end.

Lemma entries_app a : forall k b, entries k (a ++ b) = entries k a ++ entries (k + Z.of_nat (length a)) b.
Proof.
  induction a as [|[nm|] a IH]; intros k b; cbn [app entries length].
  - now rewrite Z.add_0_r.
  - rewrite IH. cbn [app]. do 3 f_equal. lia.
  - rewrite IH. do 2 f_equal. lia.
Qed.
Lemma entries_some l : forall k, entries k (map Some l) = numbered k l.
Proof. induction l as [|nm l IH]; intro k; cbn [map entries numbered]; [reflexivity|]. now rewrite IH. Qed.
Lemma entries_none n : forall k, entries k (repeat None n) = [].
Proof. induction n as [|n IH]; intro k; cbn [repeat entries]; auto. Qed.
Lemma entries_in t : forall k i nm, In (i, nm) (entries k t) <-> (k <= i /\ nth_error t (Z.to_nat (i - k)) = Some (Some nm)).
Proof.
  induction t as [|o t IH]; intros k i nm.
  - cbn [entries In]. split; [contradiction|]. intros (_ & H). destruct (Z.to_nat (i - k)); discriminate.
  - assert (X: In (i, nm) (entries (k + 1) t) <-> (k + 1 <= i /\ nth_error (o :: t) (Z.to_nat (i - k)) = Some (Some nm))).
    { rewrite IH. split; intros (A & B); (split; [exact A|]); replace (Z.to_nat (i - k)) with (S (Z.to_nat (i - (k + 1)))) in * by lia; exact B. }
    destruct o as [nm'|]; cbn [entries In]; rewrite X; clear X IH.
    + split.
      * intros [[= <- <-]|(A & B)]; [split; [lia|now rewrite Z.sub_diag]|split; [lia|exact B]].
      * intros (A & B). destruct (Z.eq_dec i k) as [->|D]; [|right; split; [lia|exact B]].
        rewrite Z.sub_diag in B. injection B as ->. now left.
    + split; [intros (A & B); split; [lia|exact B]|]. intros (A & B). split; [|exact B].
      destruct (Z.eq_dec i k) as [->|D]; [|lia]. rewrite Z.sub_diag in B. discriminate.
Qed.

Lemma aset_mid {A} (l r : list A) x y : aset (l ++ x :: r) (Z.of_nat (length l)) y = Ok (l ++ y :: r).
Proof.
  unfold aset. rewrite (proj2 (Z.ltb_ge _ _)) by lia. rewrite Nat2Z.id, app_length. cbn [length].
  rewrite (proj2 (Nat.ltb_lt _ _)) by lia. f_equal. induction l as [|a l IH]; [reflexivity|].
  cbn [app length set_nth]. now rewrite IH.
Qed.
Lemma aget_mid {A} (l r : list A) x : aget (l ++ x :: r) (Z.of_nat (length l)) = Ok x.
Proof.
  unfold aget. rewrite (proj2 (Z.ltb_ge _ _)) by lia. rewrite Nat2Z.id, nth_error_app2, Nat.sub_diag by lia. reflexivity.
Qed.
Lemma copy_spec names : forall (pre post : slots),
  copy_names names (Z.of_nat (length pre)) (pre ++ repeat None (length names) ++ post) = Ok (pre ++ map Some names ++ post).
Proof.
  induction names as [|nm names IH]; intros pre post; cbn [copy_names length repeat map app]; [reflexivity|].
  rewrite aset_mid. cbn [bind]. replace (Z.of_nat (length pre) + 1) with (Z.of_nat (length (pre ++ [Some nm]))) by (rewrite app_length; cbn [length]; lia).
  replace (pre ++ Some nm :: repeat None (length names) ++ post) with ((pre ++ [Some nm]) ++ repeat None (length names) ++ post) by now rewrite <- app_assoc.
  rewrite IH, <- app_assoc. reflexivity.
Qed.
Lemma add_spec names : forall (pre post : slots), (length pre + length names <= 1000)%nat ->
  add_names names (Z.of_nat (length pre)) (pre ++ repeat None (length names) ++ post)
    = Ok (Z.of_nat (length pre + length names), pre ++ map Some names ++ post).
Proof.
  induction names as [|nm names IH]; intros pre post L; cbn [add_names length repeat map app] in *; [now rewrite Nat.add_0_r|].
  unfold MAXRNGS. rewrite (proj2 (Z.eqb_neq _ _)) by lia.
  rewrite aset_mid. cbn [bind]. replace (Z.of_nat (length pre) + 1) with (Z.of_nat (length (pre ++ [Some nm]))) by (rewrite app_length; cbn [length]; lia).
  replace (pre ++ Some nm :: repeat None (length names) ++ post) with ((pre ++ [Some nm]) ++ repeat None (length names) ++ post) by now rewrite <- app_assoc.
  rewrite IH by (rewrite app_length; cbn [length]; lia). rewrite <- app_assoc, app_length. cbn [length app]. do 3 f_equal. lia.
Qed.
Lemma add_at names (pre mid post : slots) i : Z.of_nat (length pre) = i -> mid = repeat None (length names) -> (length pre + length names <= 1000)%nat ->
  add_names names i (pre ++ mid ++ post) = Ok (i + Z.of_nat (length names), pre ++ map Some names ++ post).
Proof. intros <- -> L. rewrite add_spec by exact L. do 2 f_equal. lia. Qed.

Definition devices (random urandom arandom : bool) : list (list N) :=
  (if random then [bytes_of "/dev/random"] else []) ++ (if urandom then [bytes_of "/dev/urandom"] else []) ++
  (if arandom then [bytes_of "/dev/arandom"] else []).
(** The finished table. *)
Definition shape (gsl hw : list (list N)) : slots :=
  map Some gsl ++ repeat None (200 - length gsl) ++ map Some dieharder_names ++ repeat None 190 ++
  map Some R_names ++ repeat None 94 ++ map Some hw ++ repeat None (500 - length hw).

Lemma nones a b : repeat (@None (list N)) (a + b) = repeat None a ++ repeat None b.
Proof. apply repeat_app. Qed.
Lemma types_shape gsl r u a : (length gsl <= 200)%nat ->
  dieharder_rng_types gsl r u a = Ok (shape gsl (devices r u a)).
Proof.
  intro L. unfold dieharder_rng_types. change (Z.to_nat MAXRNGS) with 1000%nat.
  assert (LD: length dieharder_names = 10%nat) by reflexivity.
  assert (LR: length R_names = 6%nat) by reflexivity.
  remember dieharder_names as dh eqn:DH. remember R_names as rn eqn:RN.
  replace 1000%nat with (length gsl + ((200 - length gsl) + (10 + (190 + (6 + (94 + 500))))))%nat by lia.
  rewrite !nones.
  assert (CS: forall post, copy_names gsl 0 (repeat None (length gsl) ++ post) = Ok (map Some gsl ++ post)) by (intro post; exact (copy_spec gsl [] post)).
  rewrite CS. cbn [bind].
  rewrite (app_assoc (map Some gsl)). rewrite (add_at dh _ (repeat None 10)); [|rewrite app_length, map_length, repeat_length; lia|rewrite LD; reflexivity|rewrite app_length, map_length, repeat_length; lia].
  cbn [bind]. rewrite <- (app_assoc (map Some gsl)).
  replace (map Some gsl ++ repeat None (200 - length gsl) ++ map Some dh ++ repeat None 190 ++ repeat None 6 ++ repeat None 94 ++ repeat None 500)
    with ((map Some gsl ++ repeat None (200 - length gsl) ++ map Some dh ++ repeat None 190) ++ repeat None 6 ++ repeat None 94 ++ repeat None 500) by now rewrite <- !app_assoc.
  rewrite (add_at rn); [|rewrite !app_length, !map_length, !repeat_length; lia|rewrite LR; reflexivity|rewrite !app_length, !map_length, !repeat_length; lia].
  cbn [bind].
  replace ((map Some gsl ++ repeat None (200 - length gsl) ++ map Some dh ++ repeat None 190) ++ map Some rn ++ repeat None 94 ++ repeat None 500)
    with ((map Some gsl ++ repeat None (200 - length gsl) ++ map Some dh ++ repeat None 190 ++ map Some rn ++ repeat None 94) ++ repeat None 500) by now rewrite <- !app_assoc.
  set (pre := map Some gsl ++ _). assert (LP: length pre = 500%nat) by (unfold pre; rewrite !app_length, !map_length, !repeat_length; lia).
  assert (SH: forall hw, shape gsl hw = pre ++ map Some hw ++ repeat None (500 - length hw)).
  { intro hw. unfold shape, pre. rewrite <- DH, <- RN, <- !app_assoc. reflexivity. }
  rewrite SH. clearbody pre. clear - LP.
  assert (STEP: forall (b : bool) nm hw, (length hw < 3)%nat ->
    (if b then add_names [nm] (500 + Z.of_nat (length hw)) (pre ++ map Some hw ++ repeat None (500 - length hw))
     else Ok (500 + Z.of_nat (length hw), pre ++ map Some hw ++ repeat None (500 - length hw)))
    = (let hw' := hw ++ (if b then [nm] else []) in Ok (500 + Z.of_nat (length hw'), pre ++ map Some hw' ++ repeat None (500 - length hw')))).
  { intros b nm hw LH. destruct b; cbv zeta; [|now rewrite app_nil_r].
    replace (500 - length hw)%nat with (1 + (500 - length (hw ++ [nm])))%nat by (rewrite app_length; cbn [length]; lia).
    rewrite nones, (app_assoc pre). rewrite (add_at [nm]); [|rewrite app_length, map_length; lia|reflexivity|rewrite app_length, map_length; cbn [length]; lia].
    f_equal. f_equal; [rewrite app_length; cbn [length]; lia|]. rewrite map_app, <- !app_assoc. reflexivity. }
  assert (S0: forall (b : bool) (nm : list N), (if b then add_names [nm] 500 (pre ++ repeat None 500) else Ok (500, pre ++ repeat None 500))
     = (let hw' := if b : bool then [nm] else [] in Ok (500 + Z.of_nat (length hw'), pre ++ map Some hw' ++ repeat None (500 - length hw'))))
    by (intros b nm; refine (STEP b nm [] _); cbn; lia).
  assert (D1: forall b nm, (length (if b : bool then [nm : list N] else []) <= 1)%nat) by (intros [|] ?; cbn; lia).
  rewrite S0. cbv zeta. cbn [bind].
  rewrite STEP by (pose proof (D1 r (bytes_of "/dev/random")); lia). cbv zeta. cbn [bind].
  rewrite STEP by (rewrite app_length; pose proof (D1 r (bytes_of "/dev/random")); pose proof (D1 u (bytes_of "/dev/urandom")); lia).
  cbv zeta. cbn [bind]. unfold devices. rewrite <- app_assoc. reflexivity.
Qed.

Lemma block_spec names : forall fuel (pre post : slots), (length names < fuel)%nat ->
  list_block fuel (Z.of_nat (length pre)) (pre ++ map Some names ++ None :: post) = Ok (numbered (Z.of_nat (length pre)) names).
Proof.
  induction names as [|nm names IH]; intros [|fuel] pre post L; cbn [length] in L; try lia; cbn [list_block map app numbered].
  - now rewrite aget_mid.
  - rewrite aget_mid. cbn [bind].
    replace (Z.of_nat (length pre) + 1) with (Z.of_nat (length (pre ++ [Some nm]))) by (rewrite app_length; cbn [length]; lia).
    replace (pre ++ Some nm :: map Some names ++ None :: post) with ((pre ++ [Some nm]) ++ map Some names ++ None :: post) by now rewrite <- app_assoc.
    rewrite IH by lia. reflexivity.
Qed.
Lemma block_at names fuel i (t pre post : slots) : Z.of_nat (length pre) = i -> t = pre ++ map Some names ++ None :: post -> (length names < fuel)%nat ->
  list_block fuel i t = Ok (numbered i names).
Proof. intros <- -> L. now apply block_spec. Qed.
Lemma cons_none n : (0 < n)%nat -> repeat (@None (list N)) n = None :: repeat None (n - 1).
Proof. destruct n; [lia|]. intros _. cbn [repeat Nat.sub]. now rewrite Nat.sub_0_r. Qed.

(** Whatever GSL offers (fewer than 200 generators) and whatever devices there
    are, the listing shows exactly the generators of the table, each with its
    number. *)
Theorem C153_listed : forall gsl r u a, (length gsl < 200)%nat ->
  exists t l, dieharder_rng_types gsl r u a = Ok t /\ list_rngs t = Ok l /\ length t = 1000%nat /\
    (forall i nm, In (i, nm) l <-> 0 <= i /\ nth_error t (Z.to_nat i) = Some (Some nm)) /\
    l = entries 0 t.
Proof.
  intros gsl r u a L. exists (shape gsl (devices r u a)), (entries 0 (shape gsl (devices r u a))).
  split; [apply types_shape; lia|].
  assert (LH: (length (devices r u a) <= 3)%nat) by (destruct r, u, a; cbn; lia).
  remember (devices r u a) as hw eqn:HW. clear HW.
  assert (LD: length dieharder_names = 10%nat) by reflexivity.
  assert (LR: length R_names = 6%nat) by reflexivity.
  assert (EN: entries 0 (shape gsl hw) = numbered 0 gsl ++ numbered 200 dieharder_names ++ numbered 400 R_names ++ numbered 500 hw).
  { unfold shape. rewrite !entries_app, !entries_none, !entries_some, !map_length, !repeat_length, LD, LR. cbn [app].
    rewrite app_nil_r. 
    assert (NU: forall x y l, x = y -> numbered x l = numbered y l) by (intros x y l ->; reflexivity).
    apply (f_equal2 (@app _)); [reflexivity|]. apply (f_equal2 (@app _)); [apply NU; lia|].
    apply (f_equal2 (@app _)); [apply NU; lia|]. apply NU; lia. }
  repeat split.
  - rewrite EN. unfold list_rngs.
    rewrite (block_at gsl _ _ _ [] (repeat None (200 - length gsl - 1) ++ map Some dieharder_names ++ repeat None 190 ++ map Some R_names ++ repeat None 94 ++ map Some hw ++ repeat None (500 - length hw)));
      [|reflexivity|unfold shape; rewrite (cons_none (200 - length gsl)) by lia; reflexivity|lia]. cbn [bind].
    rewrite (block_at dieharder_names _ _ _ (map Some gsl ++ repeat None (200 - length gsl)) (repeat None 189 ++ map Some R_names ++ repeat None 94 ++ map Some hw ++ repeat None (500 - length hw)));
      [|rewrite app_length, map_length, repeat_length; lia|unfold shape; rewrite (cons_none 190) by lia; rewrite <- !app_assoc; reflexivity|rewrite LD; lia]. cbn [bind].
    rewrite (block_at R_names _ _ _ (map Some gsl ++ repeat None (200 - length gsl) ++ map Some dieharder_names ++ repeat None 190) (repeat None 93 ++ map Some hw ++ repeat None (500 - length hw)));
      [|rewrite !app_length, !map_length, !repeat_length, LD; lia|unfold shape; rewrite (cons_none 94) by lia; rewrite <- !app_assoc; reflexivity|rewrite LR; lia]. cbn [bind].
    set (pre := map Some gsl ++ repeat None (200 - length gsl) ++ map Some dieharder_names ++ repeat None 190 ++ map Some R_names ++ repeat None 94).
    assert (LP: length pre = 500%nat) by (unfold pre; rewrite !app_length, !map_length, !repeat_length, LD, LR; lia).
    assert (SH: shape gsl hw = pre ++ map Some hw ++ repeat None (500 - length hw)) by (unfold shape, pre; rewrite <- !app_assoc; reflexivity).
    rewrite SH. clearbody pre.
    rewrite (block_at hw _ _ _ pre (repeat None (500 - length hw - 1))); [|lia|rewrite (cons_none (500 - length hw)) by lia; reflexivity|lia]. cbn [bind].
    rewrite (block_at [] _ _ _ (pre ++ map Some hw ++ repeat None (100 - length hw)) (repeat None 399)); [|rewrite !app_length, map_length, repeat_length; lia| |cbn [length]; lia].
    + cbn [bind numbered]. now rewrite app_nil_r.
    + cbn [map app]. rewrite <- !app_assoc. do 2 f_equal. replace (500 - length hw)%nat with ((100 - length hw) + 400)%nat by lia. rewrite nones, (cons_none 400) by lia. reflexivity.
  - unfold shape. rewrite !app_length, !map_length, !repeat_length, LD, LR. lia.
  - apply entries_in in H. exact (proj1 H).
  - apply entries_in in H. rewrite Z.sub_0_r in H. exact (proj2 H).
  - intros (A & B). apply entries_in. rewrite Z.sub_0_r. auto.
Qed.

(** So -g with a number from the listing chooses that generator, given a file
    if it reads one. *)
Theorem C153_choose : forall gsl r u a t l i nm os c s f, (length gsl < 200)%nat ->
  dieharder_rng_types gsl r u a = Ok t -> list_rngs t = Ok l -> In (i, nm) l -> nm <> [] ->
  parsecl os = Ok c -> g_args os = [s] -> numeral s (Z.to_N i) -> f = true \/ ~ wants_file nm ->
  select_rng t (c_gens c) f = Ok (Some i).
Proof.
  intros gsl r u a t l i nm os c s f L T LI I NE P G NU F.
  destruct (C153_listed gsl r u a L) as (t' & l' & T' & L' & LT & IN & _).
  rewrite T in T'. injection T' as <-. rewrite LI in L'. injection L' as <-.
  apply IN in I. destruct I as (I0 & I1).
  assert (B: (Z.to_nat i < 1000)%nat) by (rewrite <- LT; apply nth_error_Some; congruence).
  destruct (C141_by_number t f os c s [] (Z.to_N i) P G ltac:(cbn; lia) NU ltac:(lia) LT) as (H & _).
  rewrite (H nm) by (try (replace (N.to_nat (Z.to_N i)) with (Z.to_nat i) by lia); assumption).
  do 2 f_equal. lia.
Qed.

(** The numbers of dieharder's and R's generators are the same everywhere. *)
Theorem C154_fixed : forall gsl r u a t, (length gsl <= 200)%nat -> dieharder_rng_types gsl r u a = Ok t ->
  (forall k nm, nth_error dieharder_names k = Some nm -> nth_error t (200 + k) = Some (Some nm)) /\
  (forall k nm, nth_error R_names k = Some nm -> nth_error t (400 + k) = Some (Some nm)).
Proof.
  intros gsl r u a t L T. rewrite types_shape in T by exact L. injection T as <-.
  assert (LD: length dieharder_names = 10%nat) by reflexivity.
  split; intros k nm H.
  - unfold shape. rewrite (app_assoc (map Some gsl)), nth_error_app2 by (rewrite app_length, map_length, repeat_length; lia).
    rewrite nth_error_app1.
    + rewrite app_length, map_length, repeat_length. replace (200 + k - (length gsl + (200 - length gsl)))%nat with k by lia. apply map_nth_error, H.
    + rewrite app_length, !map_length, repeat_length. assert (k < length dieharder_names)%nat by (apply nth_error_Some; congruence). lia.
  - unfold shape. remember dieharder_names as dh. rewrite (app_assoc (map Some gsl)), (app_assoc (_ ++ _) (map Some dh)), (app_assoc (_ ++ map Some dh)).
    assert (LL: length (((map Some gsl ++ repeat None (200 - length gsl)) ++ map Some dh) ++ repeat None 190) = 400%nat)
      by (rewrite !app_length, !map_length, !repeat_length; lia).
    rewrite nth_error_app2 by lia. rewrite LL. replace (400 + k - 400)%nat with k by lia.
    rewrite nth_error_app1; [apply map_nth_error, H|rewrite map_length; apply nth_error_Some; congruence].
Qed.

(** Those of the devices are not: number 500 is /dev/random on one machine and
    /dev/urandom on another. *)
Theorem C154_device_refuted : forall gsl, (length gsl <= 200)%nat -> exists t t',
  dieharder_rng_types gsl true true false = Ok t /\ nth_error t 500 = Some (Some (bytes_of "/dev/random")) /\
  dieharder_rng_types gsl false true false = Ok t' /\ nth_error t' 500 = Some (Some (bytes_of "/dev/urandom")).
Proof.
  intros gsl L. exists (shape gsl (devices true true false)), (shape gsl (devices false true false)).
  assert (X: forall hw nm, nth_error (shape gsl (nm :: hw)) 500 = Some (Some nm)).
  { intros hw nm.
    assert (LD: length dieharder_names = 10%nat) by reflexivity. assert (LR: length R_names = 6%nat) by reflexivity.
    set (pre := map Some gsl ++ repeat None (200 - length gsl) ++ map Some dieharder_names ++ repeat None 190 ++ map Some R_names ++ repeat None 94).
    assert (LP: length pre = 500%nat) by (unfold pre; rewrite !app_length, !map_length, !repeat_length, LD, LR; lia).
    assert (SH: shape gsl (nm :: hw) = pre ++ map Some (nm :: hw) ++ repeat None (500 - length (nm :: hw))) by (unfold shape, pre; rewrite <- !app_assoc; reflexivity).
    rewrite SH, nth_error_app2, LP by lia. reflexivity. }
  rewrite !types_shape by exact L. repeat split; apply X.
Qed.

(** ... spelled out: the numbers to give to -g for these on every machine *)
Theorem C154_numbers : forall gsl r u a t, (length gsl <= 200)%nat -> dieharder_rng_types gsl r u a = Ok t ->
  Forall (fun e => nth_error t (fst e) = Some (Some (bytes_of (snd e))))
    [(200, "stdin_input_raw"); (201, "file_input_raw"); (202, "file_input"); (203, "ca"); (204, "uvag"); (205, "AES_OFB");
     (206, "Threefish_OFB"); (207, "XOR (supergenerator)"); (208, "kiss"); (209, "superkiss");
     (400, "R_wichmann_hill"); (401, "R_marsaglia_multic."); (402, "R_super_duper"); (403, "R_mersenne_twister");
     (404, "R_knuth_taocp"); (405, "R_knuth_taocp2")]%nat%string.
Proof.
  intros gsl r u a t L T. destruct (C154_fixed gsl r u a t L T) as (D & R).
  pose proof (fun k nm => D k (bytes_of nm)) as D'. pose proof (fun k nm => R k (bytes_of nm)) as R'. cbn [Nat.add] in D', R'.
  repeat apply Forall_cons; try apply Forall_nil; cbn [fst snd];
  [apply (D' 0%nat)|apply (D' 1%nat)|apply (D' 2%nat)|apply (D' 3%nat)|apply (D' 4%nat)|apply (D' 5%nat)|apply (D' 6%nat)|apply (D' 7%nat)|apply (D' 8%nat)|apply (D' 9%nat)
  |apply (R' 0%nat)|apply (R' 1%nat)|apply (R' 2%nat)|apply (R' 3%nat)|apply (R' 4%nat)|apply (R' 5%nat)]; reflexivity.
Qed.
Example C154_ex : exists t, dieharder_rng_types (map bytes_of ["borosh13"; "cmrg"]%string) false true true = Ok t /\
  nth_error t 208 = Some (Some (bytes_of "kiss")) /\ nth_error t 403 = Some (Some (bytes_of "R_mersenne_twister")) /\
  nth_error t 501 = Some (Some (bytes_of "/dev/arandom")).
Proof. eexists. split; [rewrite types_shape by (cbn; lia); reflexivity|]. vm_compute. repeat split. Qed.

(** A list of two names from GSL and the two usual devices: twenty entries. *)
Example C153_ex : exists t l, dieharder_rng_types (map bytes_of ["borosh13"; "cmrg"]%string) true true false = Ok t /\
  list_rngs t = Ok l /\ length l = 20%nat /\ nth 2 l (0, []) = (200, bytes_of "stdin_input_raw") /\
  nth 19 l (0, []) = (501, bytes_of "/dev/urandom").
Proof.
  do 2 eexists. split; [rewrite types_shape by (cbn; lia); reflexivity|]. split; [vm_compute; reflexivity|].
  vm_compute. repeat split.
Qed.

Print Assumptions C153_listed.
Print Assumptions C153_choose.
Print Assumptions C154_fixed.
Print Assumptions C154_device_refuted.
Print Assumptions C154_numbers.
