(** A word of independent digits is independent of everything that its digits do
    not take part in. *)
From Coq Require Import Lia Lra Permutation.
From Verif Require Export WordSpec RankLawSpec OpermStatSpec.
From Verif Require Import BaseLemmas BitsLemmas TallyLemmas OpermReal DnaBlock RunsArcs CrapsLaw CrapsLaw2 VtestLaw RankLawLemmas MissingLaw MissingLaw2 WindowLaw WordDigits WordCode CountLaw.
Open Scope R_scope.

Section Split.
Context {W : Type}.
Variable all : list W.
Variable L : nat.
Variable bs : list N.
Variable X : nat -> W -> N.
Variable sigma : nat -> N -> W -> W.
Hypothesis all_ne : all <> [].
Hypothesis bs_ne : bs <> [].
Hypothesis perm : forall p b, (p < L)%nat -> In b bs -> Permutation (map (sigma p b) all) all.
Hypothesis other : forall p q b l, (p < L)%nat -> (q < L)%nat -> q <> p -> In b bs -> In l all -> X q (sigma p b l) = X q l.
Hypothesis same : forall p l h, (p < L)%nat -> In l all -> lsumR bs (fun b => h (X p (sigma p b l))) = lsumR bs h.
Variable pos : nat -> nat.

Definition digits (k : nat) (l : W) : list N := map (fun r => X (pos r) l) (seq 0 k).
Lemma digits_S k l : digits (S k) l = digits k l ++ [X (pos k) l].
Proof. unfold digits. rewrite seq_S, map_app. reflexivity. Qed.
Lemma split_digits G u : let m := length u in
  (forall r, (r < m)%nat -> (pos r < L)%nat) -> (forall r s, (r < m)%nat -> (s < m)%nat -> pos r = pos s -> r = s) ->
  (forall r, (r < m)%nat -> apart all bs sigma (pos r) G) ->
  average all (fun l => G l * same_word (digits m l) u) = average all G * chance bs (fun x => x) u.
Proof.
  induction u as [|y u IH] using rev_ind; intros m P I A.
  - unfold m, chance, same_word. cbn. rewrite Rmult_1_r. apply average_ext. intros l _. cbn. ring.
  - unfold m in *. clear m. rewrite app_length, Nat.add_1_r in *. set (k := length u) in *. cbn zeta in IH.
    rewrite chance_snoc. rewrite <- Rmult_assoc, <- IH by (intros; try (apply P; lia); try (apply I; lia || assumption); try (apply A; lia)).
    change (share bs (fun x => x) y) with (average bs (fun x => b2r (x =? y)%N)).
    rewrite <- (split_off all L bs X sigma bs_ne perm same (pos k) (fun l => G l * same_word (digits k l) u) (fun x => b2r (x =? y)%N)).
    + apply average_ext. intros l _. rewrite digits_S, same_snoc. ring.
    + apply P. lia.
    + intros b l B Al. rewrite (A k) by (lia || assumption). f_equal. f_equal. unfold digits. apply map_ext_in. intros r R. apply in_seq in R. apply other; try assumption; try (apply P; lia).
      intro E. apply I in E; lia.
Qed.
End Split.
