(** The tables and the p-values of the two tree-filling tests
    (libdieharder/dab_filltree.c, dab_filltree2.c).  The arithmetic is a
    parameter (see KsModel), and so are gsl_sf_gamma_inc_Q and log. *)
From Verif Require Export TreeModel KsModel ChisqModel.
Open Scope Z_scope.

(** dab_filltree.c:33-35: targetData; (m, e) stands for m/10^e *)
Definition target1 : list (Z * Z) :=
 [(0, 0); (0, 0); (0, 0); (0, 0); (13333333, 8);
  (2, 1); (20634921, 8); (17857143, 8); (13007085, 8); (8183633, 8);
  (4338395, 8); (1851828, 8); (61727, 7); (151193, 8); (2352, 7);
  (168, 7); (0, 0); (0, 0); (0, 0); (0, 0)].

(** dab_filltree2.c:60-93: targetData *)
Definition target2 : list (Z * Z) :=
 [(0, 0); (0, 0); (0, 0); (0, 0);
  (0, 0); (0, 0); (476837158203125, 21); (286102294921875, 20);
  (985432416200638, 20); (255650229519233, 19); (554892931177164, 19); (106380728425393, 18);
  (186047948883328, 18); (30311244166753, 17); (466749839810675, 18); (686429646575251, 18);
  (971661742344283, 18); (133175306183679, 17); (177557452024558, 17); (231133638265425, 17);
  (294636954701581, 17); (368691038033341, 17); (453788756811422, 17); (550271070203945, 17);
  (658306187040692, 17); (777869319248569, 17); (908723493764983, 17); (105040204946228, 16);
  (120219359149386, 16); (136313029599996, 16); (153198054448571, 16); (170724691056809, 16);
  (188717051355292, 16); (206974268550898, 16); (225272476458152, 16); (243367662285437, 16);
  (260999426084925, 16); (277895645547568, 16); (293778004147126, 16); (308368295109554, 16);
  (321395365179289, 16); (332602513106519, 16); (341755111120263, 16); (348648176685728, 16);
  (353113590065781, 16); (355026634060874, 16); (354311528899465, 16); (35094565005384, 15);
  (344962151263554, 16); (336450769511817, 16); (325556661902256, 16); (31247721351896, 15);
  (297456856036487, 16); (280780043276814, 16); (262762635190492, 16); (243742038353947, 16);
  (224066531487575, 16); (204084261828087, 16); (184132426894747, 16); (164527152702953, 16);
  (145554542687502, 16); (127463303124921, 16); (110459255065655, 16); (947019265623616, 17);
  (803032911044744, 17); (673285885868451, 17); (557990440062551, 17); (456961957621112, 17);
  (369674675854223, 17); (29532570905934, 16); (232903101043375, 17); (181253806897198, 17);
  (139147961934567, 17); (105336473071676, 17); (78599787487321, 17); (577865708395529, 18);
  (41841881087046, 17); (298251837753283, 18); (209191678462234, 18); (144307562906168, 18);
  (978595402557837, 19); (6520247003055, 17); (426618834333199, 19); (273961611501714, 19);
  (17256844789337, 18); (106559535882152, 19); (644626192690798, 20); (381786954553569, 20);
  (22122334819058, 19); (125320523087539, 20); (69352747611892, 20); (374634041706112, 21);
  (197372359804204, 21); (101324484479249, 21); (506387688071287, 22); (24612770858879, 21);
  (116222051625842, 22); (532575018016149, 23); (236548132737708, 23); (101707372778487, 23);
  (422755189488443, 24); (169627368106376, 24); (655983218678784, 25); (244087465306515, 25);
  (872288816181913, 26); (298796462656132, 26); (978930546827611, 27); (306028628289706, 27);
  (910492627063714, 28); (257067414678584, 28); (686573813128305, 29); (172840983639153, 29);
  (408488586235289, 30); (902205965579907, 31); (185248682021962, 31); (35148157083845, 31);
  (611888831372621, 33); (969194996799213, 34); (138262127072485, 34); (175429503989084, 35);
  (194858024047957, 36); (185585143679842, 37); (147329706646149, 38); (935788996513105, 40);
  (445783630198697, 41); (141554277734465, 42); (224689329737247, 44); (0, 0)].

Section Stat.
Variable A : arith.
Local Notation T := (num A).
Variable Q : T -> T -> T.
Variable nlog : T -> T.
Notation int := (nint A).

(** dab_filltree.c:64, dab_filltree2.c:123: the expected counts.  A literal of
    the table is the nearest double; here it is the quotient of two integers,
    the same for at most 15 digits and a power of ten up to 22. *)
Definition tree_expected (table : list (Z * Z)) (tsamples : N) : list T :=
  map (fun me => nmul A (nlit A (fst me) (10 ^ snd me)) (int (Z.of_N tsamples))) table.

(** dab_filltree.c:63-69, dab_filltree2.c:122-128: the bins used, [start] to
    [end] - 1; both are unsigned ints that start at 0 *)
Definition range_step (i : nat) (e : T) (s : nat * nat) : nat * nat :=
  let '(start, stop) := s in
  if ngt A (int 4) e then (if (stop =? 0)%nat then i else start, stop)
  else if ngt A e (int 4) then (start, i) else s.
Fixpoint range_loop (i : nat) (l : list T) (s : nat * nat) : nat * nat :=
  match l with [] => s | e :: l => range_loop (S i) l (range_step i e s) end.
Definition tree_range (expected : list T) : nat * nat :=
  let '(start, stop) := range_loop 0 expected (0, 0)%nat in (S start, stop).

(** dab_filltree.c:93, dab_filltree2.c:161: the first p-value.  When no bin
    expects more than 4, end - start is negative as an int. *)
Definition tree_pvalue (counts : list N) (expected : list T) : outcome T :=
  let '(start, stop) := tree_range expected in
  chisq_pearson A Q (skipn start (map (fun n => int (Z.of_N n)) counts)) (skipn start expected) (Z.of_nat stop - Z.of_nat start).

(** dab_filltree.c:95-96: the second p-value; tsamples/(size/2) is a division
    of unsigned ints.  The expected counts overwrite those of the table, so
    their array holds 20 doubles. *)
Definition filltree_positions (pos : list N) (size tsamples : N) : outcome T :=
  if (20 <? size / 2)%N then UB "expected" else
  chisq_pearson A Q (map (fun n => int (Z.of_N n)) pos) (repeat (int (Z.of_N (tsamples / (size / 2)))) (N.to_nat (size / 2))) (Z.of_N (size / 2)).

(** dab_filltree.c:39-105: both p-values, with the default size of 32; the first
    is 0 and the second not set after an early return *)
Definition dab_filltree (g : nat -> N) (w : N) (tsamples c : nat) : outcome (T * option T) :=
  do (r, _) <- filltree g 32 w tsamples c ;;
  match r with
  | None => Ok (int 0, None)
  | Some (counts, pos) =>
    do p <- tree_pvalue counts (tree_expected target1 (N.of_nat tsamples)) ;;
    do q <- filltree_positions pos 32 (N.of_nat tsamples) ;; Ok (p, Some q)
  end.

(** dab_filltree2.c:97-174: both p-values, with the default size of 128 *)
Definition dab_filltree2 (g : nat -> N) (w : N) (tsamples c : nat) : outcome (T * option T) :=
  do (r, _) <- filltree2 g 128 w tsamples c ;;
  match r with
  | None => Ok (int 0, None)
  | Some (counts, pos) =>
    do p <- tree_pvalue counts (tree_expected target2 (N.of_nat tsamples)) ;;
    do q <- chisq_gtest A Q nlog pos (Z.of_nat tsamples) 64 ;; Ok (p, Some q)
  end.
End Stat.
