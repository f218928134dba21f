(** The law of the games: sums over all sequences of rolls. *)
From Coq Require Import Lia Lra Bool.
From Verif Require Import BaseLemmas.
From Verif Require Export CrapsLawSpec DnaBlock.
Open Scope R_scope.

Definition die : list N := [1; 2; 3; 4; 5; 6]%N.
Fixpoint pairup (l : list N) : list N := match l with a :: b :: r => (a + b)%N :: pairup r | _ => [] end.
Definition ind (b : bool) : R := if b then 1 else 0.

(** the average over all sequences of L throws *)
Definition Pr (L : nat) (f : list N -> R) : R := lsumR (tuples die (2 * L)) (fun l => f (pairup l)) / 36 ^ L.
Lemma Pr_ext L f g : (forall l, f l = g l) -> Pr L f = Pr L g.
Proof. intro H. unfold Pr. f_equal. apply lsumR_ext. intros; apply H. Qed.
Lemma Pr_scale L c f : Pr L (fun l => c * f l) = c * Pr L f.
Proof. unfold Pr. rewrite lsumR_scale. unfold Rdiv. ring. Qed.
Lemma Pr_zero L : Pr L (fun _ => 0) = 0.
Proof. unfold Pr. rewrite lsumR_zero. unfold Rdiv. ring. Qed.
Lemma pair_sum (f : N -> R) : lsumR die (fun a => lsumR die (fun b => f (a + b)%N)) =
  f 2%N + 2 * f 3%N + 3 * f 4%N + 4 * f 5%N + 5 * f 6%N + 6 * f 7%N + 5 * f 8%N + 4 * f 9%N + 3 * f 10%N + 2 * f 11%N + f 12%N.
Proof. unfold die. cbn [lsumR]. repeat match goal with |- context [(?a + ?b)%N] => let v := eval vm_compute in (a + b)%N in change (a + b)%N with v end. ring. Qed.
Lemma Pr_step L f : Pr (S L) f = let g t := Pr L (fun l => f (t :: l)) in
  (g 2%N + 2 * g 3%N + 3 * g 4%N + 4 * g 5%N + 5 * g 6%N + 6 * g 7%N + 5 * g 8%N + 4 * g 9%N + 3 * g 10%N + 2 * g 11%N + g 12%N) / 36.
Proof.
  cbv beta zeta. rewrite <- (pair_sum (fun t => Pr L (fun l => f (t :: l)))). unfold Pr at 1. replace (2 * S L)%nat with (S (S (2 * L))) by lia. rewrite tuples_sum. cbn [pow].
  rewrite (lsumR_ext die _ (fun a => 36 ^ L * lsumR die (fun b => Pr L (fun l => f ((a + b)%N :: l))))).
  - rewrite lsumR_scale. field. apply pow_nonzero. lra.
  - intros a _. rewrite tuples_sum, <- lsumR_scale. apply lsumR_ext. intros b _. unfold Pr. cbn [pairup]. field. apply pow_nonzero. lra.
Qed.

(** ** the rules on a list of throws *)
Fixpoint later (k : nat) (goal point : N) (ts : list N) : bool :=
  match ts, k with
  | t :: _, O => (t =? goal)%N
  | t :: r, S k => negb (t =? 7)%N && negb (t =? point)%N && later k goal point r
  | [], _ => false
  end.
Definition played (r : nat * bool) (ts : list N) : bool :=
  match ts, r with
  | t :: _, (S O, true) => (t =? 7)%N || (t =? 11)%N
  | t :: _, (S O, false) => (t =? 2)%N || (t =? 3)%N || (t =? 12)%N
  | t :: rest, (S (S k), won) => existsb (N.eqb t) points && later k (if won then t else 7%N) t rest
  | _, _ => false
  end.
Fixpoint series_of (rs : list (nat * bool)) (ts : list N) : bool :=
  match rs with [] => true | r :: rs => played r ts && series_of rs (skipn (fst r) ts) end.

Lemma later_law k : forall L goal point g, (k < L)%nat -> In point points -> goal = 7%N \/ goal = point ->
  Pr L (fun ts => ind (later k goal point ts) * g (skipn (S k) ts)) = (1 - ways2 7 / 36 - ways2 point / 36) ^ k * (ways2 goal / 36) * Pr (L - S k) g.
Proof.
  induction k as [|k IH]; intros L goal point g KL P G; (destruct L as [|L]; [lia|]); rewrite Pr_step; cbv beta zeta; cbn [later skipn].
  - replace (S L - 1)%nat with L by lia. cbn [points In] in P.
    destruct G as [->| ->]; [|destruct P as [<-|[<-|[<-|[<-|[<-|[<-|[]]]]]]]]; cbn [N.eqb Pos.eqb ind]; cbv [ways2]; rewrite !(fun c => Pr_scale L c g); cbn [pow]; field.
  - replace (S L - S (S k))%nat with (L - S k)%nat by lia. assert (KL' : (k < L)%nat) by lia. specialize (IH L goal point g KL' P G).
    set (X := Pr L (fun ts => ind (later k goal point ts) * g (skipn (S k) ts))) in *.
    assert (Y : forall b, Pr L (fun ts => ind (b && later k goal point ts) * g (skipn (S k) ts)) = ind b * X).
    { intros [|]; cbn [andb ind]; [rewrite Rmult_1_l; reflexivity|]. rewrite (Pr_ext _ _ (fun _ => 0)) by (intro; ring). rewrite Pr_zero. ring. }
    rewrite !Y. clearbody X. cbn [pow]. rewrite !Rmult_assoc. replace ((1 - ways2 7 / 36 - ways2 point / 36) ^ k * (ways2 goal / 36 * Pr (L - S k) g)) with X by (rewrite IH; ring).
    cbn [points In] in P. destruct P as [<-|[<-|[<-|[<-|[<-|[<-|[]]]]]]]; cbn [N.eqb Pos.eqb negb andb ind]; cbv [ways2]; field.
Qed.
Lemma played_law L r g : (fst r <= L)%nat -> Pr L (fun ts => ind (played r ts) * g (skipn (fst r) ts)) = game_law r * Pr (L - fst r) g.
Proof.
  destruct r as ([|[|k]] & won); cbn [fst]; intro H.
  - rewrite (Pr_ext _ _ (fun _ => 0)); [rewrite Pr_zero; cbn; ring|]. intros [|t l]; cbn [played ind]; ring.
  - destruct L as [|L]; [lia|]. rewrite Pr_step. cbv beta zeta. replace (S L - 1)%nat with L by lia. cbn [skipn]. destruct won; cbn [played N.eqb Pos.eqb orb ind game_law]; cbv [ways2]; rewrite !(fun c => Pr_scale L c g); field.
  - destruct L as [|L]; [lia|]. rewrite Pr_step. cbv beta zeta. replace (S L - S (S k))%nat with (L - S k)%nat by lia. cbn [played].
    assert (LW : forall t, In t points -> Pr L (fun l => ind (existsb (N.eqb t) points && later k (if won then t else 7%N) t l) * g (skipn (S (S k)) (t :: l))) =
      (1 - ways2 7 / 36 - ways2 t / 36) ^ k * (ways2 (if won then t else 7%N) / 36) * Pr (L - S k) g).
    { intros t T. rewrite <- later_law; [|lia|exact T|destruct won; auto]. apply Pr_ext. intro l.
      replace (existsb (N.eqb t) points) with true; [reflexivity|]. symmetry. apply existsb_exists. exists t. split; [exact T|apply N.eqb_refl]. }
    assert (L0 : forall t, existsb (N.eqb t) points = false -> Pr L (fun l => ind (existsb (N.eqb t) points && later k (if won then t else 7%N) t l) * g (skipn (S (S k)) (t :: l))) = 0).
    { intros t ->. rewrite (Pr_ext _ _ (fun _ => 0)); [apply Pr_zero|]. intro l. cbn [andb ind]. ring. }
    rewrite (L0 2%N), (L0 3%N), (L0 7%N), (L0 11%N), (L0 12%N), !LW by (reflexivity || (cbn [points In]; tauto)).
    cbn [game_law fold_right points]. set (Q := Pr (L - S k) g). clearbody Q. destruct won; cbv [ways2]; field.
Qed.
Lemma Pr_one L : Pr L (fun _ => 1) = 1.
Proof. induction L as [|L IH]; [unfold Pr; cbn; field|]. rewrite Pr_step. cbv beta zeta. rewrite IH. field. Qed.
Lemma series_of_law rs : forall L, (throws_of rs <= L)%nat -> Pr L (fun ts => ind (series_of rs ts)) = series_law rs.
Proof.
  induction rs as [|r rs IH]; intros L H; cbn [series_of series_law fold_right].
  - apply Pr_one.
  - unfold throws_of in H. cbn [map list_sum fold_right] in H. fold (throws_of rs) in H. change (fold_right Nat.add 0%nat (map fst rs)) with (throws_of rs) in H.
    rewrite (Pr_ext _ _ (fun ts => ind (played r ts) * ind (series_of rs (skipn (fst r) ts)))) by (intro ts; destruct (played r ts), (series_of _ _); cbn; ring).
    rewrite (played_law L r (fun l => ind (series_of rs l))) by lia. rewrite IH by lia. reflexivity.
Qed.
