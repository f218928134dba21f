(** Specifications for assessment, histogram and chi-square bundling. *)
From Verif Require Export ReportModel.
Open Scope N_scope.

(** The better the assessment, the higher. *)
Definition score (a : assessment) : nat :=
  match a with FAILED => 0 | WEAK => 1 | PASSED => 2 end.

Fixpoint nsum (l : list N) : N := match l with [] => 0 | a :: r => a + nsum r end.
Fixpoint zsum (l : list Z) : Z := match l with [] => 0%Z | a :: r => (a + zsum r)%Z end.

Fixpoint count {A} (f : A -> bool) (l : list A) : nat :=
  match l with [] => 0%nat | a :: r => ((if f a then 1 else 0) + count f r)%nat end.

(** ** Chi-square *)

(** Sum of a list of doubles from left to right, starting with the first. *)
Definition dsum (l : list double) : double :=
  match l with [] => dzero | a :: r => fold_left dadd r a end.

Definition large (cutoff : double) (c : double * double) : bool := dge (snd c) cutoff.

(** All the cells below the cutoff, bundled into one. *)
Definition bundle (small : list (double * double)) : double * double :=
  (dsum (map fst small), dsum (map snd small)).

(** The cells that enter chi-square: the large ones, in order, then the bundle
    of the others if there are any and it is large enough. *)
Definition used (cutoff : double) (cells : list (double * double)) : list (double * double) :=
  let small := filter (fun c => negb (large cutoff c)) cells in
  filter (large cutoff) cells ++
  (if negb (length small =? 0)%nat && large cutoff (bundle small) then [bundle small] else []).

Definition chisq_of (cells : list (double * double)) : double :=
  fold_left (fun s c => dadd s (delchisq (fst c) (snd c))) cells dzero.
