(** The law of the tree-filling test: the numbers of a tree in all orders. *)
From Coq Require Import Permutation.
From Verif Require Export TreeLawSpec RankLawSpec.
Open Scope R_scope.

(** A list of all orders of the numbers xs. *)
Definition all_orders {A} (xs : list A) (all : list (list A)) : Prop := NoDup all /\ forall ys, In ys all <-> Permutation xs ys.
(** Numbers are added to a search tree of d levels until one finds no room: how
    many there were with that one, and the slot where its descent ended. *)
Fixpoint tree_end (d : nat) (t : bst) (n : nat) (ys : list N) : option (nat * N) :=
  match ys with
  | [] => None
  | y :: ys => match bst_add d y t with inl t => tree_end d t (S n) ys | inr p => Some (S n, p) end
  end.
Definition ends (ys : list N) : option (nat * N) := tree_end 4 Empty 0 ys.
(** The share of the orders with a property *)
Definition share {A} (all : list A) (P : A -> bool) : R := average all (fun ys => if P ys then 1 else 0).
Definition after (i : nat) (o : option (nat * N)) : bool := match o with Some r => took i r | None => false end.
Definition after_at (i p : nat) (o : option (nat * N)) : bool := match o with Some r => took i r && ended p r | None => false end.

(** What the program does with one tree of words ws, rotated by rot: the number
    of words used and half the position of the failure.  The generator continues
    with ones. *)
Definition one_tree (w rot : N) (ws : list N) : option (nat * N) :=
  match tree (fun k => nth k ws 1%N) 66 32 15 w rot (repeat 0%N 32) 0 0 with
  | Ok (Some (pos, n), _) => Some (N.to_nat n, (pos / 2)%N)
  | _ => None
  end.
