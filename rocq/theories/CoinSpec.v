(** Experiments with fair coins, and the second tree-filling test as one. *)
From Coq Require Import List NArith Reals.
From Verif Require Export OpermStatSpec.
Import ListNotations.

(** An experiment that tosses coins until it has a result. *)
Inductive coin (A : Type) : Type := Ret (a : A) | Flip (f : bool -> coin A).
Arguments Ret {A}. Arguments Flip {A}.
Fixpoint cbind {A B} (c : coin A) (k : A -> coin B) : coin B :=
  match c with Ret a => k a | Flip f => Flip (fun b => cbind (f b) k) end.
(** Its result on a string of tosses and the tosses left over; [None] if there are too few. *)
Fixpoint run {A} (c : coin A) (bs : list bool) : option (A * list bool) :=
  match c with
  | Ret a => Some (a, bs)
  | Flip f => match bs with [] => None | b :: bs => run (f b) bs end
  end.

(** All bit strings of a length. *)
Fixpoint strings (n : nat) : list (list bool) :=
  match n with O => [[]] | S n => map (cons false) (strings n) ++ map (cons true) (strings n) end.

(** The trees of the test: a node is marked or not; the nodes below an unmarked one are unmarked. *)
Inductive dtree := Blank | Marked (l r : dtree).
(** From a node with h levels, its own included: an unmarked node is marked;
    a marked one on the last level is the end, its number from the left the
    result; otherwise a toss decides (1 is right) where to go on. *)
Fixpoint descend (h : nat) (t : dtree) : coin (dtree + N) :=
  match h with
  | O => Ret (inr 0%N)
  | S h =>
    match t with
    | Blank => Ret (inl (Marked Blank Blank))
    | Marked l r =>
      match h with
      | O => Ret (inr 0%N)
      | S k => Flip (fun b : bool =>
          if b then cbind (descend h r) (fun x => Ret (match x with inl r => inl (Marked l r) | inr p => inr (2 ^ N.of_nat k + p)%N end))
          else cbind (descend h l) (fun x => Ret (match x with inl l => inl (Marked l r) | inr p => inr p end)))
      end
    end
  end.
(** Descents until one finds no room: how many there were, and where the last
    one ended; [None] if that did not happen within the first [rounds]. *)
Fixpoint fill (rounds h : nat) (t : dtree) (n : nat) : coin (option (nat * N)) :=
  match rounds with
  | O => Ret None
  | S f => cbind (descend h t) (fun x => match x with inl t => fill f h t (S n) | inr p => Ret (Some (S n, p)) end)
  end.
(** One tree of the test: seven levels, the root marked from the start. *)
Definition one_tree : coin (option (nat * N)) := fill 127 7 (Marked Blank Blank) 0.
(** m trees, one after the other. *)
Fixpoint some_trees (m : nat) : coin (list (option (nat * N))) :=
  match m with
  | O => Ret []
  | S m => cbind one_tree (fun r => cbind (some_trees m) (fun rs => Ret (r :: rs)))
  end.
Definition trees_of (m : nat) (bs : list bool) : option (list (option (nat * N))) := option_map fst (run (some_trees m) bs).

Open Scope R_scope.
Definition result_eq_dec (a b : option (nat * N)) : {a = b} + {a <> b}.
Proof. decide equality. decide equality; [apply N.eq_dec|apply Nat.eq_dec]. Defined.
Definition results_eqb (a b : option (list (option (nat * N)))) : bool :=
  match a, b with
  | Some a, Some b => if list_eq_dec result_eq_dec a b then true else false
  | None, None => true
  | _, _ => false
  end.
(** The share of the bit strings of length L on which m trees have the results rs. *)
Definition tree_chance (L m : nat) (rs : list (option (nat * N))) : R :=
  average (strings L) (fun bs => if results_eqb (trees_of m bs) (Some rs) then 1 else 0).
