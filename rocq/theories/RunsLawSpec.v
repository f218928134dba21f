(** The law of the statistic of diehard_runs when all orderings of the
    generator's results are equally likely. *)
From Coq Require Export Reals.
From Verif Require Export OpermStatSpec RunsStatModel.
Open Scope R_scope.

(** The runs counted for n results that are ordered like [pi]: rising or, with
    [rising] = false, falling runs of length i+1 (i = 5: six and more). *)
Definition runs_counted (rising : bool) (n : nat) (pi : list nat) : outcome (list N) :=
  do ud <- count_runs (results pi 0) (map (results pi) (seq 1 (n - 1))) ;;
  Ok (if rising then fst ud else snd ud).
Definition runs_of (rising : bool) (n : nat) (pi : list nat) (i : nat) : R :=
  match runs_counted rising n pi with Ok c => IZR (Z.of_N (nth i c 0%N)) | _ => 0 end.
(** the statistic, in exact arithmetic *)
Definition runs_statistic (rising : bool) (n : nat) (pi : list nat) : outcome R :=
  do c <- runs_counted rising n pi ;; runs_stat reals (Z.of_nat n) c.

(** the tables as real numbers *)
Definition Amat (i j : nat) : R := IZR (nth j (nth i run_a []) 0%Z) / 10.
Definition bvec (i : nat) : R := IZR (fst (nth i run_b (0, 1)%Z)) / IZR (snd (nth i run_b (0, 1)%Z)).

(** ** the moments of the counts, for the theorems to confirm *)
Definition entry6 (t : list (list Z)) (i j : nat) : R := IZR (nth j (nth i t []) 0%Z).
(** mean of what is counted too much at the two ends of the sequence *)
Definition run_shift : list (Z * Z) := [(1, 2); (-1, 6); (-5, 24); (-11, 120); (-19, 720); (-1, 144)]%Z.
Definition Shift (i : nat) : R := IZR (fst (nth i run_shift (0, 1)%Z)) / IZR (snd (nth i run_shift (0, 1)%Z)).
(** covariances per number *)
Definition run_cov : list (list Z) :=
  [[2784862080; -423783360; -324324000; -156035880; -49969920; -14534520];
   [-423783360; 3073510440; -1069188120; -429969540; -120348228; -31303272];
   [-324324000; -1069188120; 1310821512; -255987732; -68106948; -16998072];
   [-156035880; -429969540; -255987732; 484114722; -23450609; -5697601];
   [-49969920; -120348228; -68106948; -23450609; 119499244; -1407179];
   [-14534520; -31303272; -16998072; -5697601; -1407179; 25616364]]%Z.
Definition RunCov (i j : nat) : R := entry6 run_cov i j / 21794572800.
(** what the two ends add *)
Definition run_end : list (list Z) :=
  [[2542700160; -294053760; -312586560; -101467080; -17623320; -755040];
   [-294053760; -459613440; 339613560; 224075280; 84099444; 28041156];
   [-312586560; 339613560; -248356680; 198282084; 64312092; 19275984];
   [-101467080; 224075280; 198282084; -197916732; 26447291; 7490197];
   [-17623320; 84099444; 64312092; 26447291; -74527571; 2079624];
   [-755040; 28041156; 19275984; 7490197; 2079624; -21074041]]%Z.
Definition RunEnd (i j : nat) : R := entry6 run_end i j / 3113510400.
