(** The checks of the tables of OpermMatrix. *)
From Coq Require Import Lia Bool.
From Verif Require Import OpermAverage.
From Verif Require Export OpermTable OpermMatrix.
Open Scope Z_scope.

Definition entry (t : list (list Z)) (i j : nat) : Z := nth j (nth i t []) 0.
Definition all120 (f : nat -> bool) : bool := forallb f (seq 0 120).
Lemma all120_ok f : all120 f = true -> forall i, (i < 120)%nat -> f i = true.
Proof. intros H i Hi. unfold all120 in H. rewrite forallb_forall in H. apply H. apply in_seq. lia. Qed.

Lemma cov_table_check : all120 (fun i => all120 (fun j => entry cov_table i j =? covz i j)) = true.
Proof. vm_cast_no_check (eq_refl true). Qed.

Fixpoint dot (c p : list Z) : Z := match c, p with x :: c, y :: p => x * y + dot c p | _, _ => 0 end.
Definition unitz : Z := 362880000000000000000.
Definition epsz : Z := 1200000000.
Definition at4 (z : list Z) (t : list nat) (k : nat) : Z := nth (nth k t 0%nat) z 0.
Definition residue (j : nat) (z : list Z) (z0 : Z) (k : nat) (v : Z) : Z :=
  v - (if Nat.eqb k j then unitz else 0) - (at4 z first_four k - at4 z last_four k + z0).
Definition col_check (j : nat) (z : list Z) (z0 : Z) : bool :=
  all120 (fun k => Z.abs (residue j z z0 k (dot (nth j cov_table []) (nth k pseudo_inv []))) <=? epsz).
Lemma cert_check : forallb (fun jz => col_check (fst jz) (fst (snd jz)) (snd (snd jz))) (combine reps certs) = true.
Proof. vm_cast_no_check (eq_refl true). Qed.

Definition perm_check (g : list nat) : bool :=
  all120 (fun k => (nth k g 0 <? 120)%nat) && all120 (fun k => Nat.eqb (nth (nth k g 0%nat) g 0%nat) k).
Definition cov_invariant (g : list nat) : bool := all120 (fun i => all120 (fun j => entry cov_table (nth i g 0%nat) (nth j g 0%nat) =? entry cov_table i j)).
Definition inv_invariant (g : list nat) : bool := all120 (fun i => all120 (fun j => Z.abs (entry pseudo_inv (nth i g 0%nat) (nth j g 0%nat) - entry pseudo_inv i j) <=? 1000)).
Definition carries (g h : list nat) (a b : list nat) : bool := all120 (fun k => Nat.eqb (nth (nth k g 0%nat) b 0%nat) (nth (nth k a 0%nat) h 0%nat)).
Lemma upside_down_check : perm_check upside_down && cov_invariant upside_down && inv_invariant upside_down &&
  carries upside_down upside_down4 first_four first_four && carries upside_down upside_down4 last_four last_four = true.
Proof. vm_cast_no_check (eq_refl true). Qed.
Lemma backwards_check : perm_check backwards && cov_invariant backwards && inv_invariant backwards &&
  carries backwards backwards4 first_four last_four && carries backwards backwards4 last_four first_four = true.
Proof. vm_cast_no_check (eq_refl true). Qed.
Definition is_rep (j : nat) : bool := existsb (Nat.eqb j) reps.
Lemma reps_check : all120 (fun j => is_rep j || is_rep (nth j upside_down 0%nat) || is_rep (nth j backwards 0%nat) || is_rep (nth (nth j backwards 0%nat) upside_down 0%nat)) = true.
Proof. vm_cast_no_check (eq_refl true). Qed.

Fixpoint addat (m : nat) (c : Z) (l : list Z) : list Z :=
  match l, m with [], _ => [] | x :: l, O => (x + c) :: l | x :: l, S m => x :: addat m c l end.
Fixpoint groups (c : list Z) (a b : list nat) (acc : list Z) : list Z :=
  match c, a, b with x :: c, m :: a, p :: b => groups c a b (addat m x (addat p (- x) acc)) | _, _, _ => acc end.
Definition zero24 (l : list Z) : bool := Nat.eqb (length l) 24 && forallb (Z.eqb 0) l.
Lemma null_check : all120 (fun i => zero24 (groups (nth i cov_table []) first_four last_four (repeat 0 24)) && (fold_right Z.add 0 (nth i cov_table []) =? 0)) = true.
Proof. vm_cast_no_check (eq_refl true). Qed.
Lemma width_check : all120 (fun i => fold_right (fun x a => Z.abs x + a) 0 (nth i cov_table []) <=? 236488) = true.
Proof. vm_cast_no_check (eq_refl true). Qed.
Definition tables_shape : bool :=
  Nat.eqb (length cov_table) 120 && Nat.eqb (length pseudo_inv) 120 && forallb (fun r => Nat.eqb (length r) 120) cov_table && forallb (fun r => Nat.eqb (length r) 120) pseudo_inv &&
  Nat.eqb (length first_four) 120 && Nat.eqb (length last_four) 120 && forallb (fun m => m <? 24)%nat first_four && forallb (fun m => m <? 24)%nat last_four.
Lemma shape_check : tables_shape = true.
Proof. vm_cast_no_check (eq_refl true). Qed.
Definition trace : Z := lsum (seq 0 120) (fun k => dot (nth k cov_table []) (nth k pseudo_inv [])).
Lemma trace_check : Z.abs (trace - 96 * unitz) <=? 1000000000 = true.
Proof. vm_cast_no_check (eq_refl true). Qed.
Definition end_trace : Z := lsum (seq 0 120) (fun k => lsum (seq 0 120) (fun l => endz l k * entry pseudo_inv k l)).
Lemma end_check : ((-164670 * unitz <=? 10000 * end_trace) && (10000 * end_trace <=? -164669 * unitz)) = true.
Proof. vm_cast_no_check (eq_refl true). Qed.
