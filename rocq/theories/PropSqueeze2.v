(** C112: the expected frequencies of the squeeze test. *)
From Coq Require Import ZArith Reals Lra Lia List Bool.
From Flocq Require Import Core IEEE754.BinarySingleNaN.
From Verif Require Import ExpectedLemmas.
From Verif Require Import SqueezeModel SqueezeSpec SqueezeLaw SqueezeSums KsSpec KsReals.
Import ListNotations.
Open Scope R_scope.

(** ** Bounds for the power sums up to 2^31-1 *)
Definition exponents : list nat := seq 4 43.
Definition terms (m : nat) : nat :=
  Z.to_nat (if (m <? 5)%nat then 511 else if (m <? 6)%nat then 127 else if (m <? 8)%nat then 63 else if (m <? 12)%nat then 31 else if (m <? 20)%nat then 15 else 7).
Definition first_terms : list Z := map (fun m => dsum (terms m) 2 (Z.of_nat m)) exponents.
Definition lo : list Z := [24286035848019774099; 743558352754344726; 232955748739850760]%Z ++ map (fun m => dsum (terms m) 2 (Z.of_nat m)) exponents.
Definition hi : list Z := [24286035848212729959; 743558354899733270; 232955748873546498]%Z ++
  map (fun m => (dsum (terms m) 2 (Z.of_nat m) + Z.of_nat (terms m) + one / (Z.of_nat (terms m) + 1) ^ (Z.of_nat m - 1) + 1)%Z) exponents.
Definition loh : list Z := iterate (next_lo lo) 46 [one].
Definition hih : list Z := iterate (next_hi hi) 46 [one].

Section Numbers.
Variable k : nat.
Hypothesis K : Z.of_nat k = 2147483646%Z.
Lemma k_INR : INR k = 2147483646.
Proof. now rewrite INR_IZR_INZ, K. Qed.
Lemma sums_1 : dsum (Z.to_nat 255) 2 1 = 5907967504655816109%Z /\ dsum (Z.to_nat 511) 2 1 = 6705986994583669994%Z.
Proof. split; vm_compute; reflexivity. Qed.
Lemma sums_2 : dsum (Z.to_nat 511) 2 2 = 741308752500785432%Z.
Proof. vm_compute. reflexivity. Qed.
Lemma sums_3 : dsum (Z.to_nat 255) 2 3 = 232946987006566922%Z.
Proof. vm_compute. reflexivity. Qed.
Lemma INR_lit z : (0 <= z)%Z -> INR (Z.to_nat z) = IZR z.
Proof. intro H. now rewrite INR_IZR_INZ, Z2Nat.id. Qed.
Lemma direct' m n : (0 <= n)%Z -> fx (dsum (Z.to_nat n) 2 (Z.of_nat m)) <= psum m (Z.to_nat n) <= fx (dsum (Z.to_nat n) 2 (Z.of_nat m) + n).
Proof. intro H. pose proof (direct m (Z.to_nat n)) as D. now rewrite Z2Nat.id in D. Qed.
Lemma rest z : (0 <= z <= 2048)%Z -> exists d, k = (Z.to_nat z + d)%nat /\ INR d = 2147483646 - IZR z.
Proof.
  intro N. exists (k - Z.to_nat z)%nat. assert ((Z.to_nat z <= k)%nat) by lia. split; [lia|]. rewrite minus_INR by assumption. rewrite INR_lit by lia. now rewrite k_INR.
Qed.
Lemma harm_end N : (1 <= N)%nat -> (Z.of_nat N * 2 ^ 23 = 2147483648)%Z -> harm (N * 2 ^ 23) = psum 1 k + 1 + / 2147483648.
Proof.
  intros H E. assert (EN : (N * 2 ^ 23)%nat = Datatypes.S (Datatypes.S k)).
  { apply Nat2Z.inj. rewrite Nat2Z.inj_mul, Nat2Z.inj_pow. change (Z.of_nat 2) with 2%Z. change (Z.of_nat 23) with 23%Z. rewrite E. lia. }
  rewrite EN, psum_harm. unfold harm. cbn [rsum]. replace (INR (Datatypes.S k + 1)) with 2147483648; [ring|]. rewrite plus_INR, S_INR, k_INR. cbn [INR]. lra.
Qed.
Lemma first_bound : fx 24286035848019774099 <= psum 1 k <= fx 24286035848212729959.
Proof.
  set (N := Z.to_nat 256). assert (EN : INR N = 256) by (unfold N; now rewrite INR_lit).
  assert (N1 : N = Datatypes.S (Z.to_nat 255)) by (unfold N; lia). assert (N2 : (2 * N)%nat = Datatypes.S (Z.to_nat 511)) by (unfold N; lia).
  pose proof (harm_doubling N ltac:(lia) 23) as H. cbv zeta in H. unfold level, leap in H. rewrite harm_end in H by (unfold N; lia).
  pose proof (direct' 1 255 ltac:(lia)) as D1. rewrite psum_harm, <- N1 in D1. pose proof (direct' 1 511 ltac:(lia)) as D2. rewrite psum_harm, <- N2 in D2.
  change (Z.of_nat 1) with 1%Z in *. destruct sums_1 as (S1 & S2). rewrite S1 in D1. rewrite S2 in D2. rewrite EN in H. clearbody N.
  replace (INR 23) with 23 in H by (cbn; lra). unfold fx, one in *. 
  set (h1 := harm N) in *. set (h2 := harm (2 * N)) in *. clearbody h1 h2. set (p := psum 1 k) in *. clearbody p.
  change (5907967504655816109 + 255)%Z with 5907967504655816364%Z in *. change (6705986994583669994 + 511)%Z with 6705986994583670505%Z in *.
  change (2 ^ 60)%Z with 1152921504606846976%Z in *.
  replace (16 * 256 ^ 2) with 1048576 in H by ring. replace (4 * 256) with 1024 in H by ring. replace (2 * 256) with 512 in H by ring.
  replace (12 * 256 ^ 2) with 786432 in H by ring. replace (32 * 256 ^ 4) with 137438953472 in H by ring.
  replace (2 ^ 23) with 8388608 in H by ring. replace (4 ^ 23) with 70368744177664 in H by ring.
  lra.
Qed.
Lemma second_bound : fx 743558352754344726 <= psum 2 k <= fx 743558354899733270.
Proof.
  destruct (rest 511 ltac:(lia)) as (d & E & D). rewrite E, psum_tail.
  pose proof (direct' 2 511 ltac:(lia)) as H. change (Z.of_nat 2) with 2%Z in H. rewrite sums_2 in H.
  pose proof (tail_2 (Z.to_nat 511) d ltac:(lia)) as T. cbv zeta in T. rewrite INR_lit in T by lia. rewrite D in T.
  set (p := psum 2 _) in *. set (q := tail 2 _ _) in *. clearbody p q. unfold fx, one in *.
  change (741308752500785432 + 511)%Z with 741308752500785943%Z in *. change (2 ^ 60)%Z with 1152921504606846976%Z in *.
  replace (511 + 1) with 512 in T by ring. replace (511 + (2147483646 - 511) + 1) with 2147483647 in T by ring.
  replace (4 * 512 ^ 2) with 1048576 in T by ring. replace (512 + 1 / 2) with (1025 / 2) in T by field. replace (2147483647 + 1 / 2) with (4294967295 / 2) in T by field.
  replace (/ (1025 / 2)) with (2 / 1025) in T by field. replace (/ (4294967295 / 2)) with (2 / 4294967295) in T by field. lra.
Qed.
Lemma third_bound : fx 232955748739850760 <= psum 3 k <= fx 232955748873546498.
Proof.
  destruct (rest 255 ltac:(lia)) as (d & E & D). rewrite E, psum_tail.
  pose proof (direct' 3 255 ltac:(lia)) as H. change (Z.of_nat 3) with 3%Z in H. rewrite sums_3 in H.
  pose proof (tail_3 (Z.to_nat 255) d ltac:(lia)) as T. cbv zeta in T. rewrite INR_lit in T by lia. rewrite D in T.
  set (p := psum 3 _) in *. set (q := tail 3 _ _) in *. clearbody p q. unfold fx, one in *.
  change (232946987006566922 + 255)%Z with 232946987006567177%Z in *. change (2 ^ 60)%Z with 1152921504606846976%Z in *.
  replace (255 + 1) with 256 in T by ring. replace (255 + (2147483646 - 255) + 1) with 2147483647 in T by ring.
  replace (256 ^ 2) with 65536 in T by ring. replace (256 * (256 + 1)) with 65792 in T by ring. replace (2147483647 * (2147483647 + 1)) with 4611686016279904256 in T by ring. lra.
Qed.
Lemma other_bound m : (2 <= m)%nat -> fx (dsum (terms m) 2 (Z.of_nat m)) <= psum m k <=
  fx (dsum (terms m) 2 (Z.of_nat m) + Z.of_nat (terms m) + one / (Z.of_nat (terms m) + 1) ^ (Z.of_nat m - 1) + 1).
Proof.
  intro M. set (n := terms m). assert (N : (n <= k)%nat) by (unfold n, terms; repeat match goal with |- context [if ?c then _ else _] => destruct c end; lia).
  replace k with (n + (k - n))%nat by lia. rewrite psum_tail. pose proof (direct m n) as D. destruct m as [|[|m]]; [lia|lia|].
  pose proof (tail_m m n (k - n)) as T. rewrite pow_inv in T. replace (INR n + 1) with (IZR (Z.of_nat n + 1)) in T by (rewrite plus_IZR, <- INR_IZR_INZ; reflexivity).
  rewrite pow_IZR in T. replace (Z.of_nat (Datatypes.S (Datatypes.S m)) - 1)%Z with (Z.of_nat (Datatypes.S m)) by lia. set (e := ((Z.of_nat n + 1) ^ Z.of_nat (Datatypes.S m))%Z) in *.
  assert (P : (0 < e)%Z) by (apply Z.pow_pos_nonneg; lia). assert (PR : 0 < IZR e) by (now apply IZR_lt). pose proof one_pos as OP.
  assert (Q : / IZR e <= fx (one / e + 1)).
  { unfold fx. apply Rmult_le_reg_r with (IZR e * IZR one); [nra|]. replace (IZR (one / e + 1) / IZR one * (IZR e * IZR one)) with (IZR (e * (one / e + 1))) by (rewrite mult_IZR; field; lra).
    replace (/ IZR e * (IZR e * IZR one)) with (IZR one) by (field; lra). apply IZR_le. pose proof (Z.mul_succ_div_gt one e P). unfold Z.succ in *. lia. }
  set (a := dsum n 2 _) in *. set (b := (one / e)%Z) in *. clearbody a b. unfold fx in *. rewrite !plus_IZR in *. unfold Rdiv in *. lra.
Qed.
Lemma nth_exponents (f : nat -> Z) i : (i < 43)%nat -> nth i (map f exponents) 0%Z = f (4 + i)%nat.
Proof.
  intro I. unfold exponents. rewrite nth_indep with (d' := f O) by (rewrite map_length, seq_length; lia). now rewrite map_nth, seq_nth by lia.
Qed.
Lemma lo_below : below lo (fun i => psum (Datatypes.S i) k).
Proof.
  intros i I. assert (L : length lo = 46%nat) by (unfold lo, exponents; now rewrite app_length, map_length, seq_length). rewrite L in I. pose proof one_pos as OP.
  assert (Z0 : forall z, (0 <= z)%Z -> 0 <= fx z) by (intros z Hz; unfold fx; apply Rmult_le_pos; [now apply IZR_le|apply Rlt_le, Rinv_0_lt_compat; lra]).
  unfold lo. destruct i as [|[|[|i]]].
  - cbn [nth app]. split; [apply Z0; lia|apply first_bound].
  - cbn [nth app]. split; [apply Z0; lia|apply second_bound].
  - cbn [nth app]. split; [apply Z0; lia|apply third_bound].
  - rewrite app_nth2 by (cbn; lia). change (length [24286035848019774099; 743558352754344726; 232955748739850760]%Z) with 3%nat. replace (Datatypes.S (Datatypes.S (Datatypes.S i)) - 3)%nat with i by lia.
    rewrite (nth_exponents (fun m => dsum (terms m) 2 (Z.of_nat m))) by lia. split; [|apply (other_bound (4 + i)); lia].
    assert (G : forall n z, (0 < z)%Z -> (0 <= dsum n z (Z.of_nat (4 + i)))%Z).
    { induction n as [|n IH]; intros z Hz; cbn [dsum]; [lia|]. specialize (IH (z + 1)%Z ltac:(lia)). assert (0 <= one / z ^ Z.of_nat (4 + i))%Z by (apply Z.div_pos; [unfold one; lia|apply Z.pow_pos_nonneg; lia]). lia. }
    apply Z0, G. lia.
Qed.
Lemma hi_above : above hi (fun i => psum (Datatypes.S i) k).
Proof.
  intros i I. assert (L : length hi = 46%nat) by (unfold hi, exponents; now rewrite app_length, map_length, seq_length). rewrite L in I.
  unfold hi. destruct i as [|[|[|i]]].
  - cbn [nth app]. apply first_bound.
  - cbn [nth app]. apply second_bound.
  - cbn [nth app]. apply third_bound.
  - rewrite app_nth2 by (cbn; lia). change (length [24286035848212729959; 743558354899733270; 232955748873546498]%Z) with 3%nat. replace (Datatypes.S (Datatypes.S (Datatypes.S i)) - 3)%nat with i by lia.
    rewrite (nth_exponents (fun m => (dsum (terms m) 2 (Z.of_nat m) + Z.of_nat (terms m) + one / (Z.of_nat (terms m) + 1) ^ (Z.of_nat m - 1) + 1)%Z)) by lia. apply (other_bound (4 + i)). lia.
Qed.
Lemma lo_nonneg : Forall (fun z => 0 <= z)%Z lo.
Proof.
  apply Forall_forall. intros z I. apply (In_nth _ _ 0%Z) in I. destruct I as (i & L & <-). destruct (lo_below i L) as (A & _). unfold fx in A. apply le_IZR. pose proof one_pos as OP.
  apply Rmult_le_reg_r with (/ IZR one); [now apply Rinv_0_lt_compat|]. rewrite Rmult_0_l. exact A.
Qed.
Lemma sums_bounds j : (j <= 46)%nat -> fx (nth (46 - j) loh 0%Z) <= upto j (Datatypes.S k) <= fx (nth (46 - j) hih 0%Z).
Proof.
  intro J. apply (upto_bounds k lo hi lo_below hi_above lo_nonneg 46); auto; unfold lo, hi, exponents; rewrite app_length, map_length, seq_length; cbn; lia.
Qed.
(** ** The comparison *)
Fixpoint zsum (n : nat) (f : nat -> Z) : Z := match n with O => 0 | S n => zsum n f + f n end.
Definition lob (j : nat) : Z := nth (46 - j) loh 0%Z.
Definition hib (j : nat) : Z := nth (46 - j) hih 0%Z.
Definition total_one : Z := (one * 2147483647)%Z.
(** bounds for the bin [b], in units of 1/(one * (2^31-1)) *)
Definition bin_lo (b : nat) : Z := match b with O => zsum 6 lob | 42%nat => total_one - zsum 47 hib | _ => lob (b + 5) end.
Definition bin_hi (b : nat) : Z := match b with O => zsum 6 hib | 42%nat => total_one - zsum 47 lob | _ => hib (b + 5) end.
Lemma rsum_bounds f g n : (forall j, (j < n)%nat -> fx (f j) <= g j) -> fx (zsum n f) <= rsum n g.
Proof.
  intro H. induction n as [|n IH]; cbn [zsum rsum]; [unfold fx; pose proof one_pos; cbn; unfold Rdiv; lra|]. specialize (IH ltac:(intros; apply H; lia)). specialize (H n ltac:(lia)).
  unfold fx in *. rewrite plus_IZR. unfold Rdiv in *. lra.
Qed.
Lemma rsum_bounds' f g n : (forall j, (j < n)%nat -> g j <= fx (f j)) -> rsum n g <= fx (zsum n f).
Proof.
  intro H. induction n as [|n IH]; cbn [zsum rsum]; [unfold fx; pose proof one_pos; cbn; unfold Rdiv; lra|]. specialize (IH ltac:(intros; apply H; lia)). specialize (H n ltac:(lia)).
  unfold fx in *. rewrite plus_IZR. unfold Rdiv in *. lra.
Qed.
Lemma law_sum n : rsum (Datatypes.S n) (fun j => steps_law j (Datatypes.S k)) = rsum n (fun j => upto j (Datatypes.S k)) / 2147483647.
Proof.
  rewrite rsum_first. assert (Z0 : steps_law 0 (Datatypes.S k) = 0) by (unfold steps_law; destruct (Nat.eqb_spec (Datatypes.S k) 1); [lia|reflexivity]). rewrite Z0, Rplus_0_l. unfold Rdiv. rewrite Rmult_comm, rsum_scale. apply rsum_ext. intros j _.
  rewrite law_S by lia. rewrite S_INR, k_INR. replace (2147483646 + 1) with 2147483647 by ring. unfold Rdiv. ring.
Qed.
Lemma bin_bounds b : (b < 43)%nat -> IZR (bin_lo b) / IZR total_one <= bin_law (Datatypes.S k) b <= IZR (bin_hi b) / IZR total_one.
Proof.
  intro B. pose proof one_pos as OP. unfold total_one. rewrite mult_IZR.
  assert (D : forall z, IZR z / (IZR one * 2147483647) = fx z / 2147483647) by (intro z; unfold fx; field; lra). rewrite !D.
  assert (M : forall x y, x <= y -> x / 2147483647 <= y / 2147483647) by (intros; lra).
  assert (CASE : b = O \/ b = 42%nat \/ (1 <= b <= 41)%nat) by lia. destruct CASE as [->|[->|C]].
  - cbn [bin_law bin_lo bin_hi]. rewrite (law_sum 6). split; apply M; [apply rsum_bounds|apply rsum_bounds']; intros j J; apply sums_bounds; lia.
  - unfold bin_law, bin_lo, bin_hi. rewrite (law_sum 47).
    assert (A : fx (zsum 47 lob) <= rsum 47 (fun j => upto j (Datatypes.S k)) <= fx (zsum 47 hib)) by (split; [apply rsum_bounds|apply rsum_bounds']; intros j J; apply sums_bounds; lia).
    assert (T : forall z, fx (total_one - z) / 2147483647 = 1 - fx z / 2147483647) by (intro z; unfold total_one, fx; rewrite minus_IZR, mult_IZR; field; lra).
    rewrite !T. lra.
  - assert (E : bin_law (Datatypes.S k) b = upto (b + 5) (Datatypes.S k) / 2147483647).
    { assert (E1 : bin_law (Datatypes.S k) b = steps_law (b + 6) (Datatypes.S k)) by (unfold bin_law; do 42 (destruct b as [|b]; [first [lia|reflexivity]|]); lia). rewrite E1. replace (b + 6)%nat with (Datatypes.S (b + 5)) by lia.
      rewrite law_S by lia. rewrite S_INR, k_INR. f_equal. ring. }
    assert (E1 : bin_lo b = lob (b + 5)) by (unfold bin_lo; do 42 (destruct b as [|b]; [first [lia|reflexivity]|]); lia).
    assert (E2 : bin_hi b = hib (b + 5)) by (unfold bin_hi; do 42 (destruct b as [|b]; [first [lia|reflexivity]|]); lia).
    rewrite E, E1, E2. split; apply M; apply sums_bounds; lia.
Qed.
End Numbers.
Definition close (b : nat) : bool := let s := (10 * nth b sdata8 0)%Z in
  ((bin_hi b * 1000000000 <=? (s + 12) * total_one) && ((s - 12) * total_one <=? bin_lo b * 1000000000))%Z.
Definition first_values : list Z :=
  [94912223619412463; 42574801964573395; 19995188911110084; 9626061438878833;
   4700871638261013; 2315519278772834; 1146667052805404; 569760669020873;
   283718479299258; 141478857325299; 70614292026226; 35265835426352;
   17619245511211; 8805089391664; 4401039494607; 2200019476277;
   1099843343429; 549866296722; 274914712377; 137451216421;
   68723563007; 34361100113; 17180323012; 8590085846;
   4295017708; 2147500450; 1073747424; 536872778;
   268436078; 134217935; 67108933; 33554455;
   16777223; 8388610; 4194304; 2097152;
   1048576; 524288; 262144; 131072;
   65536; 32768; 16384]%Z.
Definition loh_values : list Z :=
  [24307650804442936273829; 44628503342956880874249; 80941136920863838913521; 144867656371133131825810;
   255607267892060646155704; 444147147969778915111203; 759246738678614951545091; 1275527789364706940028800;
   2103749354391651810266785; 3402812543183152425817877; 5392130861039150583351198; 8361681976138895800076519;
   12675422146608442357605054; 18762115232921178152529933; 27086618145580499757723798; 38095173105552821452354842;
   52131307251806345917732130; 69325307318396956908723525; 89469883599757580830540597; 111906099093864810701528035;
   135453669019593558325081936; 158423604376021137026751723; 178743955702181278270297075; 194208219180759759435897665;
   202822479234284221687675902; 203189424744685463530596567; 194838181672682886248834342; 178402955079196393022037936;
   155580065503325836548439479; 128849846699569498516010308; 101020805083789013774194213; 74712475974657262425495999;
   51915495052937892382572530; 33740842597847361597899866; 20404139959086578860387619; 11412433578112556816400510;
   5862495841378079256095433; 2742847566884844910606610; 1157035942774998301952884; 434610624726472984261597;
   143087331852035118019907; 40445863960864122069259; 9542568144722818033778; 1803962167945996890425;
   256161759176980403521; 24286035848019774099; 1152921504606846976]%Z.
Definition hih_values : list Z :=
  [24307651828423857334388; 44628505109550592328992; 80941139918906367418879; 144867661371121175329326;
   255607276078653980968915; 444147161116336172605771; 759246759364038169571807; 1275527821223228512889550;
   2103749402371166985508931; 3402812613767548635547457; 5392130962367148676501303; 8361682117931424207590327;
   12675422339806861502734393; 18762115488950250733384854; 27086618475192793749268571; 38095173517290157662163215;
   52131307750223584130761698; 69325307902314091168787307; 89469884260903572417029180; 111906099816308648964666380;
   135453669780288131402491061; 158423605146600295911339753; 178743956451874805896087180; 194208219879991177871199106;
   202822479858285971906527672; 203189425276394105952098130; 194838182104310260624115859; 178402955412187945762142550;
   155580065746821102753745257; 128849846867840095656335946; 101020805193328744754070095; 74712476041582590003110638;
   51915495091154634991847127; 33740842618146064745918185; 20404139969058449919734910; 11412433582612865173231278;
   5862495843228592433499129; 2742847567571114791407717; 1157035943001587982207030; 434610624791975468238637;
   143087331868247921490187; 40445863964195619006538; 9542568145266156426462; 1803962168011509402864;
   256161759182117670210; 24286035848212729960; 1152921504606846976]%Z.
Lemma first_ok : first_terms = first_values.
Proof. vm_compute. reflexivity. Qed.
Fixpoint map2 (f : nat -> Z -> Z) (a : list nat) (b : list Z) : list Z := match a, b with x :: a, y :: b => f x y :: map2 f a b | _, _ => [] end.
Lemma map2_map f g : forall l, map2 f l (map g l) = map (fun m => f m (g m)) l.
Proof. induction l as [|x l IH]; cbn [map map2]; [reflexivity|now rewrite IH]. Qed.
Lemma values : loh = loh_values /\ hih = hih_values.
Proof.
  split.
  - unfold loh, lo. fold first_terms. rewrite first_ok. vm_compute. reflexivity.
  - unfold hih, hi. rewrite <- (map2_map (fun m v => (v + Z.of_nat (terms m) + one / (Z.of_nat (terms m) + 1) ^ (Z.of_nat m - 1) + 1)%Z)). fold first_terms. rewrite first_ok. vm_compute. reflexivity.
Qed.
Lemma all_close : forallb close (seq 0 43) = true.
Proof. unfold close, bin_hi, bin_lo, lob, hib. destruct values as (-> & ->). vm_compute. reflexivity. Qed.

(** A step with a deviate U goes to i exactly for U in ((i-1)/k, i/k]: if U is
    uniform, to each of 1, ..., k with the same probability. *)
Theorem C112_step : forall k i x, (1 <= k)%Z -> (1 <= i <= k)%Z -> 0 < x <= 1 ->
  (Zceil (IZR k * x) = i <-> (IZR i - 1) / IZR k < x <= IZR i / IZR k).
Proof.
  intros k i x K I X. assert (KR : 1 <= IZR k) by (apply IZR_le; lia).
  assert (A : (IZR i - 1) / IZR k < x <-> IZR i - 1 < IZR k * x).
  { split; intro H.
    - apply Rmult_lt_compat_l with (r := IZR k) in H; [|lra]. replace (IZR k * ((IZR i - 1) / IZR k)) with (IZR i - 1) in H by (field; lra). exact H.
    - apply Rmult_lt_reg_l with (IZR k); [lra|]. replace (IZR k * ((IZR i - 1) / IZR k)) with (IZR i - 1) by (field; lra). exact H. }
  assert (B : x <= IZR i / IZR k <-> IZR k * x <= IZR i).
  { split; intro H.
    - apply Rmult_le_compat_l with (r := IZR k) in H; [|lra]. replace (IZR k * (IZR i / IZR k)) with (IZR i) in H by (field; lra). exact H.
    - apply Rmult_le_reg_l with (IZR k); [lra|]. replace (IZR k * (IZR i / IZR k)) with (IZR i) by (field; lra). exact H. }
  rewrite A, B. split.
  - intros <-. split; [pose proof (Zceil_lb (IZR k * x)); lra|apply Zceil_ub].
  - intros (H1 & H2). apply Zceil_imp. rewrite minus_IZR. split; [exact H1|exact H2].
Qed.
(** C112: the table of expected frequencies is that law, to 1.2 units of the
    eighth decimal. *)
Theorem C112_table : forall k b, Z.of_nat k = 2147483647%Z -> (b < 43)%nat ->
  Rabs (IZR (nth b sdata8 0%Z) / 100000000 - bin_law k b) <= 12 / 1000000000.
Proof.
  intros k b K B. destruct k as [|k]; [discriminate|]. assert (K' : Z.of_nat k = 2147483646%Z) by lia.
  pose proof (bin_bounds k K' b B) as (L & H). assert (C : close b = true) by (pose proof all_close as A; rewrite forallb_forall in A; apply A, in_seq; lia).
  unfold close in C. apply andb_prop in C. destruct C as (C1 & C2). apply Z.leb_le, IZR_le in C1. apply Z.leb_le, IZR_le in C2.
  set (s := nth b sdata8 0%Z) in *. clearbody s. assert (T : 0 < IZR total_one) by (apply IZR_lt; reflexivity). set (t := total_one) in *. clearbody t.
  rewrite !mult_IZR in *. rewrite plus_IZR in C1. rewrite minus_IZR in C2. rewrite mult_IZR in *.
  assert (H' : IZR (bin_hi b) / IZR t <= (10 * IZR s + 12) / 1000000000).
  { apply Rmult_le_reg_r with (IZR t * 1000000000); [lra|]. replace (IZR (bin_hi b) / IZR t * (IZR t * 1000000000)) with (IZR (bin_hi b) * 1000000000) by (field; lra). lra. }
  assert (L' : (10 * IZR s - 12) / 1000000000 <= IZR (bin_lo b) / IZR t).
  { apply Rmult_le_reg_r with (IZR t * 1000000000); [lra|]. replace (IZR (bin_lo b) / IZR t * (IZR t * 1000000000)) with (IZR (bin_lo b) * 1000000000) by (field; lra). lra. }
  apply Rabs_le. lra.
Qed.
(** The frequencies add up to 1. *)
Theorem C112_sum : fold_right Z.add 0%Z sdata8 = 100000000%Z /\ length sdata8 = 43%nat.
Proof. split; reflexivity. Qed.
(** The counts the table is compared with are tsamples times the law. *)
Theorem C112_expected : forall k b n, Z.of_nat k = 2147483647%Z -> (b < 43)%nat -> (n < 2 ^ 32)%N ->
  let e := nth b (squeeze_expected n) dzero in
  is_finite e = true /\ Rabs (B2R e - IZR (Z.of_N n) * bin_law k b) <= IZR (Z.of_N n) * (121 / 10000000000).
Proof.
  intros k b n K B N e. assert (S : (0 < nth b sdata8 0 <= 100000000)%Z).
  { assert (A : forallb (fun s => (0 <? s) && (s <=? 100000000))%Z sdata8 = true) by reflexivity.
    rewrite forallb_forall in A. specialize (A (nth b sdata8 0%Z) (nth_In sdata8 0%Z (B : (b < length sdata8)%nat))). apply andb_prop in A. destruct A. lia. }
  assert (E : e = dmul (d_of_Z (Z.of_N n)) (d_lit (nth b sdata8 0%Z) 100000000)).
  { unfold e, squeeze_expected. rewrite (nth_indep _ dzero (dmul (d_of_Z (Z.of_N n)) (d_lit 0 100000000))) by (rewrite map_length; exact B).
    exact (map_nth (fun s => dmul (d_of_Z (Z.of_N n)) (d_lit s 100000000)) sdata8 0%Z b). }
  destruct (expected_close (Z.of_N n) (nth b sdata8 0%Z) 100000000) as (F & C); [lia|lia|lia|]. rewrite <- E in F, C.
  split; [exact F|]. pose proof (C112_table k b K B) as T. apply Rabs_le_inv in C, T. apply Rabs_le.
  assert (SR : 0 <= IZR (nth b sdata8 0%Z) / 100000000 <= 1) by (split; [apply Rmult_le_pos; [apply IZR_le; lia|lra]|]; assert (IZR (nth b sdata8 0%Z) <= 100000000) by (apply IZR_le; lia); lra).
  assert (NR : 0 <= IZR (Z.of_N n)) by (apply IZR_le; lia).
  set (s := IZR (nth b sdata8 0%Z) / 100000000) in *. set (v := IZR (Z.of_N n)) in *. set (L := bin_law k b) in *. set (x := B2R e) in *. clearbody s v L x. clear - C T SR NR. nra.
Qed.
(** a law one can follow by hand: from 3, one step to 1 with probability 1/3 *)
Example C112_ex : steps_law 0 3 = 0 /\ steps_law 1 3 = 1 / 3 /\ steps_law 2 3 = 5 / 18.
Proof. cbn. repeat split; field. Qed.
Print Assumptions C112_step.
Print Assumptions C112_table.
Print Assumptions C112_expected.
