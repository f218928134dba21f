(** The components of kiss and superkiss. *)
From Verif Require Export GensSpec LinearLemmas.
Open Scope N_scope.

Lemma xorshl_linear s : linear (xorshl s).
Proof. apply linear_lxor; [apply linear_id|apply linear_shl]. Qed.
Lemma xorshr_linear s : linear (xorshr s).
Proof. apply linear_lxor; [apply linear_id|apply linear_shr]. Qed.
Lemma xorshl_lt s x : x < 2 ^ 32 -> xorshl s x < 2 ^ 32.
Proof. intro H. apply lxor_w32_lt; [exact H|apply w32_lt]. Qed.
Lemma xorshr_lt s x : x < 2 ^ 32 -> xorshr s x < 2 ^ 32.
Proof. intro H. apply lxor_w32_lt; [exact H|apply shiftr_lt; exact H]. Qed.
Lemma kiss_shift_linear : linear kiss_shift.
Proof.
  apply (linear_comp (xorshl 22)); [apply xorshl_linear|].
  apply (linear_comp (xorshr 7)); [apply xorshr_linear|apply xorshl_linear].
Qed.
Lemma kiss_shift_lt x : x < 2 ^ 32 -> kiss_shift x < 2 ^ 32.
Proof. intro H. apply xorshl_lt, xorshr_lt, xorshl_lt, H. Qed.
Lemma sk_shift_linear : linear sk_shift.
Proof.
  apply (linear_comp (xorshr 5)); [apply xorshr_linear|].
  apply (linear_comp (xorshr 17)); [apply xorshr_linear|apply xorshl_linear].
Qed.
Lemma sk_shift_lt x : x < 2 ^ 32 -> sk_shift x < 2 ^ 32.
Proof. intro H. apply xorshr_lt, xorshr_lt, xorshl_lt, H. Qed.

(** The xorshift of kiss has full period. *)
Definition fermat : list N := [3; 5; 17; 257; 65537].
Lemma fermat_prime : prime_list fermat.
Proof. repeat (apply Forall_cons; [apply prime_test; reflexivity|]). apply Forall_nil. Qed.
Definition kiss_inverses : list (list N) :=
 [[152594327; 2656302519; 1165289366; 2127819742; 403399083; 1195568195; 2320355064; 473963758; 4269184124; 2253024897; 2490598850; 812375916; 2837915399; 4144107494; 1848512986; 4015256897; 645948031; 2716545794; 972170735; 1413372260; 4269062272; 438324969; 1048513125; 1734372803; 1298190958; 4098293080; 1160103609; 1294286316; 1404784477; 2517402008; 3954495872; 1386571273];
  [861314715; 570218540; 3847661054; 2178741401; 917438244; 2518562105; 1042411100; 322358063; 1270741185; 2529683802; 200881718; 2032314572; 4077610196; 1181773965; 2609236747; 2001070651; 4078634390; 4104151777; 4254803925; 773664454; 102973709; 2094836465; 1198643280; 2315298880; 1062579993; 3842498617; 3787663364; 1661940882; 239504423; 1888459017; 3794567035; 501140750];
  [3753467458; 3416272707; 4111016454; 1257280865; 3455219370; 614459119; 3182322976; 647231600; 498649565; 2837640314; 619511898; 850361404; 2767884587; 2789953337; 3504414731; 574549157; 845785267; 1008830095; 2569392673; 649795472; 2725801828; 2701284641; 4090699697; 1850191747; 3633993327; 1232706207; 4023517785; 3954578482; 2379442509; 1932522985; 3822959568; 2122985037];
  [3700681624; 1196373535; 1515340515; 4172142773; 575557444; 1452319661; 1960514498; 2545799130; 4256910397; 412668990; 206734096; 766491595; 422423610; 4096884796; 1148496072; 3154510523; 3087248371; 2530821612; 2686033824; 1576510265; 1049236437; 1025432175; 2364006363; 1243197679; 3565586814; 3983930862; 2472922430; 584569415; 1400451878; 4138146490; 3954770975; 1861694802];
  [2434242695; 1655357240; 2152563355; 3569020361; 4147775710; 2260292127; 2932559503; 1029251167; 4068899436; 2739992030; 2915418265; 525168527; 929592078; 2159709914; 1080766701; 1186365783; 2193115678; 3742071352; 2049258364; 3392051045; 967827644; 413634362; 1524682420; 1215188136; 1613634913; 4227534280; 3022842904; 2718778715; 295509911; 136561614; 610530237; 1585343450]].
Definition kiss_matrix : list N := Eval vm_compute in columns kiss_shift 32 0.
Lemma kiss_matrix_ok : columns kiss_shift 32 0 = kiss_matrix.
Proof. vm_compute. reflexivity. Qed.
Lemma kiss_order : npow kiss_matrix (product fermat) = mid32.
Proof. vm_compute. reflexivity. Qed.
Definition check_inverse (p : N) (w : list N) : bool :=
  if list_eq_dec N.eq_dec (mmul w (mxor (npow kiss_matrix (product fermat / p)) mid32)) mid32 then true else false.
Lemma kiss_inverses_ok : forallb (fun q => check_inverse (fst q) (snd q)) (combine fermat kiss_inverses) = true.
Proof. vm_compute. reflexivity. Qed.

Lemma kiss_shift_period v k : 0 < v -> v < 2 ^ 32 -> itr kiss_shift k v = v -> (2 ^ 32 - 1 | k).
Proof.
  intros V0 V H. change (2 ^ 32 - 1) with (product fermat).
  apply (full_period kiss_shift fermat kiss_inverses) with (v := v);
    [apply kiss_shift_linear|apply kiss_shift_lt|apply fermat_prime| |reflexivity| |exact V0|exact V|exact H].
  - rewrite kiss_matrix_ok. apply kiss_order.
  - rewrite kiss_matrix_ok. intros p w Hw. split.
    + pose proof kiss_inverses_ok as A. rewrite forallb_forall in A. specialize (A (p, w) Hw).
      cbn [fst snd] in A. unfold check_inverse in A.
      destruct (list_eq_dec N.eq_dec _ mid32) as [E|E]; [exact E|discriminate].
    + apply in_combine_l in Hw.
      repeat (destruct Hw as [<-|Hw]; [vm_compute; discriminate|]). destruct Hw.
Qed.
Lemma kiss_shift_back v : v < 2 ^ 32 -> itr kiss_shift (2 ^ 32 - 1) v = v.
Proof.
  intro V. rewrite (itr_npow kiss_shift _ v kiss_shift_linear kiss_shift_lt V).
  rewrite kiss_matrix_ok. change (2 ^ 32 - 1) with (product fermat). rewrite kiss_order. apply mapp_mid32. exact V.
Qed.
Lemma kiss_shift_nonzero v : 0 < v -> v < 2 ^ 32 -> 0 < kiss_shift v.
Proof.
  intros V0 V. destruct (N.eq_dec (kiss_shift v) 0) as [E|E]; [|lia]. exfalso.
  pose proof (kiss_shift_back v V) as B.
  change (2 ^ 32 - 1) with (2 ^ 32 - 2 + 1) in B. rewrite itr_add in B.
  change (itr kiss_shift 1 v) with (kiss_shift v) in B. rewrite E in B.
  assert (Z : forall k, itr kiss_shift k 0 = 0).
  { intro k. induction k as [|k IH] using N.peano_ind; [reflexivity|]. rewrite itr_succ, IH. reflexivity. }
  rewrite Z in B. lia.
Qed.

(** The xorshift of superkiss does not. *)
Definition sk_primes : list N := [2; 2; 3; 3; 5; 13; 131071].
Lemma sk_primes_prime : prime_list sk_primes.
Proof. repeat (apply Forall_cons; [apply prime_test; reflexivity|]). apply Forall_nil. Qed.
Definition sk_matrix : list N := Eval vm_compute in columns sk_shift 32 0.
Lemma sk_matrix_ok : columns sk_shift 32 0 = sk_matrix.
Proof. vm_compute. reflexivity. Qed.
Lemma sk_returns : mapp (npow sk_matrix (product sk_primes)) 521288629 = 521288629.
Proof. vm_compute. reflexivity. Qed.
Lemma sk_not_before : forallb (fun p => negb (mapp (npow sk_matrix (product sk_primes / p)) 521288629 =? 521288629)) sk_primes = true.
Proof. vm_compute. reflexivity. Qed.
Lemma sk_itr k : itr sk_shift k 521288629 = mapp (npow sk_matrix k) 521288629.
Proof. rewrite <- sk_matrix_ok. apply itr_npow; [apply sk_shift_linear|apply sk_shift_lt|reflexivity]. Qed.
Lemma sk_shift_period k : itr sk_shift k 521288629 = 521288629 <-> (306706140 | k).
Proof.
  change 306706140 with (product sk_primes). split.
  - apply exact_period; [apply sk_primes_prime| |].
    + rewrite sk_itr. apply sk_returns.
    + intros p Hp. rewrite sk_itr. pose proof sk_not_before as B. rewrite forallb_forall in B.
      specialize (B p Hp). apply negb_true_iff, N.eqb_neq in B. exact B.
  - intros [q ->]. apply itr_mul_fix. rewrite sk_itr. apply sk_returns.
Qed.
