(** Lemmas for C147. *)
From Coq Require Import Lia Lra.
From Verif Require Export MostSpec.
From Verif Require Import BaseLemmas OpermReal DnaBlock RunsArcs WindowLaw KsReals VtestLaw VtestVar CrapsLaw2.
Open Scope R_scope.

Definition edge (p : R) : R := if Rlt_dec (1 / 2) p then 1 - p else p.
Definition side (p : R) : bool := if Rlt_dec (1 / 2) p then true else false.
Definition rstep (s : R * bool) (p : R) : R * bool := if Rlt_dec (edge p) (fst s) then (edge p, side p) else s.
Lemma lit_half : 5 / 10 = 1 / 2.
Proof. lra. Qed.
Lemma step_real s p : most_step reals s p = rstep s p.
Proof.
  unfold most_step, rstep, edge, side. cbn [ngt nlit nsub nint reals]. rewrite lit_half.
  destruct (Rlt_dec (1 / 2) p) as [H|H]; cbn [fst]; [destruct (Rlt_dec (1 - p) (fst s)) as [G|G]|destruct (Rlt_dec p (fst s)) as [G|G]];
    (match goal with |- context [@fst ?a ?b s] => change (@fst a b s) with (@fst R bool s) in * end); destruct (Rlt_dec _ (@fst R bool s)); try reflexivity; exfalso; contradiction.
Qed.
Definition run (l : list R) (s : R * bool) : R * bool := fold_left rstep l s.
Definition most (l : list R) : R :=
  let '(e, s) := run l (1, true) in if s then 1 - (1 - e) ^ length l else (1 - e) ^ length l.
Lemma most_real l : evalMostExtreme reals l = most l.
Proof.
  unfold evalMostExtreme, most, run. assert (F : forall l s, fold_left (most_step reals) l s = fold_left rstep l s).
  { induction l0 as [|p l0 IH]; intro s; [reflexivity|]. cbn [fold_left]. rewrite step_real. apply IH. }
  rewrite F. change (nint reals 1, true) with (1, true). destruct (fold_left rstep l (1, true)) as [e s]. cbn [npow nsub nint reals]. rewrite <- pow_powerRZ. reflexivity.
Qed.

Definition good (p : R) : Prop := 0 <= p <= 1 /\ p <> 1 / 2.
Lemma edge_range p : 0 <= p <= 1 -> 0 <= edge p <= 1 / 2.
Proof. intro H. unfold edge. destruct (Rlt_dec _ _); lra. Qed.
Lemma edge_turn p : edge (1 - p) = edge p.
Proof. unfold edge. destruct (Rlt_dec _ (1 - p)), (Rlt_dec _ p); lra. Qed.
Lemma side_turn p : p <> 1 / 2 -> side (1 - p) = negb (side p).
Proof. intro H. unfold side. destruct (Rlt_dec _ (1 - p)), (Rlt_dec _ p); try reflexivity; exfalso; [lra|]. apply H. lra. Qed.
Lemma run_turn l : (forall p, In p l -> good p) -> forall e s, run (map (fun p => 1 - p) l) (e, negb s) = (fst (run l (e, s)), negb (snd (run l (e, s)))).
Proof.
  induction l as [|p l IH]; intros G e s; [reflexivity|]. cbn [map run fold_left]. change (fold_left rstep) with run. unfold rstep. cbn [fst]. rewrite edge_turn.
  assert (GL : forall q, In q l -> good q) by (intros; apply G; now right). destruct (G p (or_introl eq_refl)) as (_ & P). rewrite side_turn by exact P.
  destruct (Rlt_dec _ _); apply IH; exact GL.
Qed.
Lemma run_start p l s : 0 <= p <= 1 -> run (p :: l) (1, s) = run l (edge p, side p).
Proof. intro H. cbn [run fold_left]. unfold rstep at 2. cbn [fst]. pose proof (edge_range p H). destruct (Rlt_dec _ _); [reflexivity|lra]. Qed.
Lemma run_good_turn l : l <> [] -> (forall p, In p l -> good p) -> run (map (fun p => 1 - p) l) (1, true) = (fst (run l (1, true)), negb (snd (run l (1, true)))).
Proof.
  destruct l as [|p l]; [congruence|]. intros _ G. destruct (G p (or_introl eq_refl)) as (P & PH). cbn [map]. rewrite !run_start by (lra || exact P).
  rewrite edge_turn, side_turn by exact PH. apply run_turn. intros; apply G; now right.
Qed.
Lemma most_turn l : l <> [] -> (forall p, In p l -> good p) -> most (map (fun p => 1 - p) l) = 1 - most l.
Proof.
  intros NE G. unfold most. rewrite run_good_turn by assumption. destruct (run l (1, true)) as [e s]. cbn [fst snd]. rewrite map_length. destruct s; cbn [negb]; ring.
Qed.
Lemma run_ge x l : forall s, x <= fst (run l s) <-> x <= fst s /\ forall p, In p l -> x <= edge p.
Proof.
  induction l as [|p l IH]; intro s; [cbn; intuition|]. cbn [run fold_left]. change (fold_left rstep) with run. rewrite IH. unfold rstep. destruct (Rlt_dec _ _) as [L|L]; cbn [fst].
  - split; [intros (A & B); split; [lra|]; intros q [<-|Q]; [exact A|now apply B]|]. intros (A & B). split; [apply B; now left|intros; apply B; now right].
  - split; [intros (A & B); split; [lra|]; intros q [<-|Q]; [lra|now apply B]|]. intros (A & B). split; [exact A|intros; apply B; now right].
Qed.
Lemma run_gt x l : forall s, x < fst (run l s) <-> x < fst s /\ forall p, In p l -> x < edge p.
Proof.
  induction l as [|p l IH]; intro s; [cbn; intuition|]. cbn [run fold_left]. change (fold_left rstep) with run. rewrite IH. unfold rstep. destruct (Rlt_dec _ _) as [L|L]; cbn [fst].
  - split; [intros (A & B); split; [lra|]; intros q [<-|Q]; [exact A|now apply B]|]. intros (A & B). split; [apply B; now left|intros; apply B; now right].
  - split; [intros (A & B); split; [lra|]; intros q [<-|Q]; [lra|now apply B]|]. intros (A & B). split; [exact A|intros; apply B; now right].
Qed.
Lemma run_range l : l <> [] -> (forall p, In p l -> good p) -> 0 <= fst (run l (1, true)) <= 1 / 2.
Proof.
  intros NE G. split.
  - apply run_ge. split; [cbn; lra|]. intros p P. destruct (G p P) as (H & _). now apply edge_range.
  - destruct (Rle_dec (fst (run l (1, true))) (1 / 2)) as [|W]; [assumption|]. exfalso. assert (Q : 1 / 2 < fst (run l (1, true))) by lra. apply run_gt in Q. destruct Q as (_ & Q).
    destruct l as [|p l]; [congruence|]. specialize (Q p (or_introl eq_refl)). destruct (G p (or_introl eq_refl)) as (H & _). apply edge_range in H. lra.
Qed.

Section Law.
Variable omega : list R.
Hypothesis law : symmetric_law omega.
Let nonempty : omega <> [] := proj1 law.
Lemma tuples_turn F : forall n, average (tuples omega n) (fun l => F (map (fun p => 1 - p) l)) = average (tuples omega n) F.
Proof.
  intro n. revert F. induction n as [|n IH]; intro F; [reflexivity|]. rewrite !average_cons by exact nonempty. cbn [map].
  rewrite (average_ext omega _ (fun o => average (tuples omega n) (fun l => F ((1 - o) :: l)))) by (intros o _; apply (IH (fun l => F ((1 - o) :: l)))).
  rewrite <- (average_map (fun p => 1 - p) omega (fun o => average (tuples omega n) (fun l => F (o :: l)))). apply average_perm. apply law.
Qed.
Lemma all_share b : forall n, average (tuples omega n) (fun l => b2r (forallb b l)) = average omega (fun p => b2r (b p)) ^ n.
Proof.
  induction n as [|n IH]; [unfold average; cbn; field|]. rewrite average_cons by exact nonempty. cbn [pow]. rewrite (average_ext omega _ (fun o => average omega (fun p => b2r (b p)) ^ n * b2r (b o))).
  - rewrite average_scale. ring.
  - intros o _. cbn [forallb]. destruct (b o); cbn [andb b2r]; [rewrite IH; ring|]. rewrite average_zero. ring.
Qed.
Lemma good_tuple n l : In l (tuples omega n) -> forall p, In p l -> good p.
Proof. intros I p P. apply in_tuples in I. apply law. now apply I. Qed.
Lemma ne_tuple n l : (1 <= n)%nat -> In l (tuples omega n) -> l <> [].
Proof. intros N I. apply in_tuples in I. destruct I as (L & _). destruct l; [cbn in L; lia|congruence]. Qed.
Definition ext l := fst (run l (1, true)).
Definition plus l := snd (run l (1, true)).
Lemma ext_turn n l : (1 <= n)%nat -> In l (tuples omega n) -> ext (map (fun p => 1 - p) l) = ext l /\ plus (map (fun p => 1 - p) l) = negb (plus l).
Proof. intros N I. unfold ext, plus. rewrite run_good_turn by (eapply ne_tuple || eapply good_tuple; eassumption). split; reflexivity. Qed.
(** the sign is + in half of the cases, whatever the extreme *)
Lemma half (F : R -> R) n : (1 <= n)%nat ->
  average (tuples omega n) (fun l => if plus l then F (ext l) else 0) = average (tuples omega n) (fun l => F (ext l)) / 2 /\
  average (tuples omega n) (fun l => if plus l then 0 else F (ext l)) = average (tuples omega n) (fun l => F (ext l)) / 2.
Proof.
  intro N. assert (E : average (tuples omega n) (fun l => if plus l then F (ext l) else 0) = average (tuples omega n) (fun l => if plus l then 0 else F (ext l))).
  { rewrite <- tuples_turn. apply average_ext. intros l I. destruct (ext_turn n l N I) as (-> & ->). destruct (plus l); reflexivity. }
  assert (S : average (tuples omega n) (fun l => if plus l then F (ext l) else 0) + average (tuples omega n) (fun l => if plus l then 0 else F (ext l)) = average (tuples omega n) (fun l => F (ext l))).
  { rewrite <- average_plus. apply average_ext. intros l _. destruct (plus l); ring. }
  lra.
Qed.
Lemma mean_half n : (1 <= n)%nat -> average (tuples omega n) most = 1 / 2.
Proof.
  intro N. assert (E : average (tuples omega n) most = average (tuples omega n) (fun l => 1 - most l)).
  { rewrite <- (tuples_turn most). apply average_ext. intros l I. apply most_turn; [eapply ne_tuple|eapply good_tuple]; eassumption. }
  rewrite average_minus, average_const in E by (apply tuples_ne, nonempty). lra.
Qed.
Lemma far_law x n : (1 <= n)%nat -> x <= 1 -> average (tuples omega n) (fun l => if Rle_dec x (ext l) then 1 else 0) = far omega x ^ n.
Proof.
  intros N X. unfold far.
  rewrite (average_ext omega _ (fun p => b2r (if Rle_dec x (edge p) then true else false))).
  - rewrite <- all_share. apply average_ext. intros l I. destruct (Rle_dec x (ext l)) as [H|H].
    + unfold ext in H. apply run_ge in H. destruct H as (_ & H). replace (forallb _ l) with true; [reflexivity|]. symmetry. apply forallb_forall. intros p P. destruct (Rle_dec _ _) as [|W]; [reflexivity|]. destruct W. now apply H.
    + destruct (forallb _ l) eqn:E; [|reflexivity]. exfalso. apply H. apply run_ge. split; [exact X|]. intros p P. rewrite forallb_forall in E. specialize (E p P). destruct (Rle_dec x (edge p)); [assumption|discriminate].
  - intros p P. destruct (proj2 (proj2 law) p P) as (H & H'). unfold edge. destruct (Rlt_dec _ _), (Rle_dec x p), (Rle_dec x (1 - p)); try reflexivity; exfalso; lra.
Qed.
Lemma farther_law x n : (1 <= n)%nat -> x < 1 -> average (tuples omega n) (fun l => if Rlt_dec x (ext l) then 1 else 0) = farther omega x ^ n.
Proof.
  intros N X. unfold farther.
  rewrite (average_ext omega _ (fun p => b2r (if Rlt_dec x (edge p) then true else false))).
  - rewrite <- all_share. apply average_ext. intros l I. destruct (Rlt_dec x (ext l)) as [H|H].
    + unfold ext in H. apply run_gt in H. destruct H as (_ & H). replace (forallb _ l) with true; [reflexivity|]. symmetry. apply forallb_forall. intros p P. destruct (Rlt_dec _ _) as [|W]; [reflexivity|]. destruct W. now apply H.
    + destruct (forallb _ l) eqn:E; [|reflexivity]. exfalso. apply H. apply run_gt. split; [exact X|]. intros p P. rewrite forallb_forall in E. specialize (E p P). destruct (Rlt_dec x (edge p)); [assumption|discriminate].
  - intros p P. destruct (proj2 (proj2 law) p P) as (H & H'). unfold edge. destruct (Rlt_dec (1 / 2) p) as [D|D]; repeat (match goal with |- context [Rlt_dec ?a ?b] => destruct (Rlt_dec a b) end); cbn [b2r]; try reflexivity; exfalso; lra.
Qed.
End Law.
