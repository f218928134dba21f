(** What the tree-filling tests are supposed to count. *)
From Verif Require Export Base.
Open Scope N_scope.

(** [y] is the w-bit word [x] rotated left by n places. *)
Definition Rotated (w n x y : N) : Prop :=
  y < 2 ^ w /\ forall b, b < w -> N.testbit y ((b + n) mod w) = N.testbit x b.

(** Ordinary binary search trees. *)
Inductive bst := Empty | Fork (l : bst) (v : N) (r : bst).

(** Insertion into a tree with room for [d] levels: the new tree, or the
    number, from the left, of the slot below the last level where the descent
    ended. *)
Fixpoint bst_add (d : nat) (x : N) (t : bst) : bst + N :=
  match d with
  | O => inr 0
  | S d =>
    match t with
    | Empty => inl (Fork Empty x Empty)
    | Fork l v r =>
      if v <? x then match bst_add d x r with inl r => inl (Fork l v r) | inr p => inr (2 ^ N.of_nat d + p) end
      else match bst_add d x l with inl l => inl (Fork l v r) | inr p => inr p end
    end
  end.
Fixpoint bst_grow (d : nat) (xs : list N) (t : bst) : option bst :=
  match xs with
  | [] => Some t
  | x :: r => match bst_add d x t with inl t => bst_grow d r t | inr _ => None end
  end.
(** Started from the empty tree, the first number of the sequence that finds no
    room is the last one, and its descent ends at slot p. *)
Definition Fills (d : nat) (xs : list N) (p : N) : Prop :=
  exists ys y t, xs = ys ++ [y] /\ bst_grow d ys Empty = Some t /\ bst_add d y t = inr p.

(** A run of trees over a generator: tree number j starts at position c of the
    stream, rotates its words by [rot j], uses n of them and ends at slot p. *)
Section Forest.
Variable g : nat -> N.
Variable w : N.
Variable rot : N -> N.
Inductive Forest : N -> nat -> list (N * nat) -> nat -> Prop :=
| Forest_nil : forall j c, Forest j c [] c
| Forest_cons : forall j c xs p rs c',
    (forall k, (k < length xs)%nat -> Rotated w (rot j) (g (c + k)%nat) (nth k xs 0)) ->
    Fills 4 xs p -> Forest (j + 1) (c + length xs)%nat rs c' ->
    Forest j c ((p, length xs) :: rs) c'.
End Forest.

(** The bits of a stream of w-bit words, least significant first. *)
Definition lsb_stream (g : nat -> N) (w : N) (n : nat) : bool :=
  N.testbit (g (n / N.to_nat w)%nat) (N.of_nat n mod w).
