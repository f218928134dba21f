(** Mean and covariance of the counts of runs. *)
From Coq Require Import Lia Lra Bool.
From Verif Require Export RunsCount.
Open Scope R_scope.

(** ** the moments in terms of patterns *)
Definition kern (l m : pattern) : R := near l m - 13 * (prob l * prob m).
Definition oprob (o : option pattern) : R := match o with Some l => prob l | None => 0 end.
Definition okern (o : option pattern) (m : pattern) : R := match o with Some l => kern l m | None => 0 end.
Definition opair (u v : nat) (o p : option pattern) : R :=
  match o, p with Some l, Some m => if (u <=? v)%nat then pair (v - u) l m else pair (u - v) m l | _, _ => 0 end.
Definition shift (i : nat) : R := rsum 6 (fun u => oprob (rpat u i) - prob (gpat i)).
Definition cross (i j : nat) : R := rsum 6 (fun u => okern (rpat u i) (gpat j) - kern (gpat i) (gpat j)).
Definition edge (i j : nat) : R := rsum 6 (fun u => rsum 6 (fun v =>
  opair u v (rpat u i) (rpat v j) - opair u v (rpat u i) (Some (gpat j)) - opair u v (Some (gpat i)) (rpat v j) + opair u v (Some (gpat i)) (Some (gpat j)))).

Lemma gpat_length i : length (gpat i) = 6%nat.
Proof. destruct i as [|[|[|[|[|[|i]]]]]]; reflexivity. Qed.
Lemma rpat_length u i l : rpat u i = Some l -> length l = 6%nat.
Proof.
  destruct u as [|t]; cbn [rpat].
  - intro H. injection H as <-. destruct i as [|[|[|[|[|[|i]]]]]]; reflexivity.
  - destruct (Nat.ltb_spec t 5) as [L|L]; [|intro H; injection H as <-; apply gpat_length]. unfold spat.
    destruct (i <? t)%nat; [intro H; injection H as <-; apply gpat_length|]. destruct (Nat.eqb_spec i t); [|discriminate].
    intro H. injection H as <-. destruct t as [|[|[|[|[|t]]]]]; [reflexivity..|lia].
Qed.

Section Moments.
Variables (n : nat) (all : list (list nat)).
Hypothesis (Hall : lists_orderings n all) (Hn : (13 <= n)%nat).
Definition ow (o : option pattern) (pi : list nat) (u : nat) : R := b2r (whit (rises n pi) (n - 6 + u) o).
Definition len6 (o : option pattern) : Prop := forall l, o = Some l -> length l = 6%nat.
Notation avg := (average all).

Lemma avg_ow o u : len6 o -> avg (fun pi => ow o pi u) = oprob o.
Proof.
  intro L. unfold ow. destruct o as [l|]; cbn [whit oprob].
  - apply average_along; [exact Hall|]. rewrite (L l eq_refl). lia.
  - apply average_zero.
Qed.
Lemma avg_near o m u : len6 o -> length m = 6%nat ->
  avg (fun pi => ow o pi u * rsum n (ow (Some m) pi)) = okern o m + INR n * (oprob o * prob m).
Proof.
  intros L M. rewrite (average_ext all _ (fun pi => rsum n (fun v => ow o pi u * ow (Some m) pi v))) by (intros; apply rsum_scale).
  rewrite average_rsum. unfold ow. destruct o as [l|]; cbn [whit okern oprob].
  - rewrite (average_near n all (n - 6) u l m Hall Hn (L l eq_refl) M). unfold kern. ring.
  - rewrite (rsum_ext n _ (fun _ => 0)); [rewrite rsum_zero; ring|]. intros v Hv. cbv beta. etransitivity; [|apply (average_zero all)]. apply average_ext. intros pi _. cbn [b2r]. ring.
Qed.
Lemma avg_pair o p u v : (u < 6)%nat -> (v < 6)%nat -> len6 o -> len6 p -> avg (fun pi => ow o pi u * ow p pi v) = opair u v o p.
Proof.
  intros Hu Hv L M. unfold ow. destruct o as [l|]; [|cbn [opair]; etransitivity; [|apply (average_zero all)]; apply average_ext; intros; cbn [whit b2r]; ring].
  destruct p as [m|]; [|cbn [opair]; etransitivity; [|apply (average_zero all)]; apply average_ext; intros; cbn [whit b2r]; ring]. cbn [whit opair].
  specialize (L l eq_refl). specialize (M m eq_refl). destruct (Nat.leb_spec u v).
  - rewrite <- (average_pair n all (n - 6 + u) (v - u) l m Hall) by lia. apply average_ext. intros. now replace (n - 6 + u + (v - u))%nat with (n - 6 + v)%nat by lia.
  - rewrite <- (average_pair n all (n - 6 + v) (u - v) m l Hall) by lia. apply average_ext. intros. replace (n - 6 + v + (u - v))%nat with (n - 6 + u)%nat by lia. ring.
Qed.

Definition U (i : nat) (pi : list nat) : R := rsum n (fun t => b2r (rhit (steps n pi) i t)).
Definition W (i : nat) (pi : list nat) : R := rsum n (ow (Some (gpat i)) pi).
Definition D (i : nat) (pi : list nat) : R := rsum 6 (fun u => ow (rpat u i) pi u - ow (Some (gpat i)) pi u).
Lemma U_split i pi : (i < 6)%nat -> U i pi = W i pi + D i pi.
Proof. intro H. unfold U. rewrite rhit_total by lia. reflexivity. Qed.
Lemma len6_g i : len6 (Some (gpat i)).
Proof. intros l E. injection E as <-. apply gpat_length. Qed.
Lemma len6_r u i : len6 (rpat u i).
Proof. intros l E. now apply rpat_length in E. Qed.

Lemma avg_W i : avg (W i) = INR n * prob (gpat i).
Proof. unfold W. rewrite average_rsum. rewrite (rsum_ext n _ (fun _ => prob (gpat i))) by (intros; now rewrite avg_ow by apply len6_g). apply rsum_const. Qed.
Lemma average_minus {A} (l : list A) f g : average l (fun x => f x - g x) = average l f - average l g.
Proof. rewrite (average_ext l _ (fun x => f x + (-1) * g x)) by (intros; ring). rewrite average_plus, average_scale. ring. Qed.
Lemma avg_D i : avg (D i) = shift i.
Proof.
  unfold D, shift. rewrite average_rsum. apply rsum_ext. intros u Hu. rewrite average_minus, !avg_ow by (apply len6_r || apply len6_g). reflexivity.
Qed.
Lemma avg_WW i j : avg (fun pi => W i pi * W j pi) = INR n * kern (gpat i) (gpat j) + INR n * INR n * (prob (gpat i) * prob (gpat j)).
Proof.
  rewrite (average_ext all _ (fun pi => rsum n (fun u => ow (Some (gpat i)) pi u * W j pi))).
  2:{ intros pi _. unfold W at 1. rewrite Rmult_comm, rsum_scale. apply rsum_ext. intros; apply Rmult_comm. }
  rewrite average_rsum. rewrite (rsum_ext n _ (fun _ => kern (gpat i) (gpat j) + INR n * (prob (gpat i) * prob (gpat j)))).
  - rewrite rsum_const. ring.
  - intros u Hu. apply (avg_near (Some (gpat i))); [apply len6_g|apply gpat_length].
Qed.
Lemma avg_DW i j : avg (fun pi => D i pi * W j pi) = cross i j + INR n * (shift i * prob (gpat j)).
Proof.
  rewrite (average_ext all _ (fun pi => rsum 6 (fun u => ow (rpat u i) pi u * W j pi - ow (Some (gpat i)) pi u * W j pi))).
  2:{ intros pi _. unfold D. rewrite Rmult_comm, rsum_scale. apply rsum_ext. intros; ring. }
  rewrite average_rsum. unfold cross, shift.
  rewrite (rsum_ext 6 _ (fun u => (okern (rpat u i) (gpat j) - kern (gpat i) (gpat j)) + INR n * prob (gpat j) * (oprob (rpat u i) - prob (gpat i)))).
  - rewrite <- rsum_plus, <- rsum_scale. ring.
  - intros u Hu. rewrite average_minus. unfold W. rewrite !avg_near by (apply len6_r || apply len6_g || apply gpat_length). cbn [okern oprob]. ring.
Qed.
Lemma avg_DD i j : avg (fun pi => D i pi * D j pi) = edge i j.
Proof.
  rewrite (average_ext all _ (fun pi => rsum 6 (fun u => rsum 6 (fun v =>
    ow (rpat u i) pi u * ow (rpat v j) pi v - ow (rpat u i) pi u * ow (Some (gpat j)) pi v - ow (Some (gpat i)) pi u * ow (rpat v j) pi v + ow (Some (gpat i)) pi u * ow (Some (gpat j)) pi v)))).
  2:{ intros pi _. unfold D at 1. rewrite Rmult_comm, rsum_scale. apply rsum_ext. intros u Hu. unfold D. rewrite Rmult_comm, rsum_scale. apply rsum_ext. intros v Hv. ring. }
  rewrite average_rsum. apply rsum_ext. intros u Hu. rewrite average_rsum. apply rsum_ext. intros v Hv.
  rewrite average_plus, !average_minus, !avg_pair by (assumption || apply len6_r || apply len6_g). reflexivity.
Qed.

Lemma avg_U i : (i < 6)%nat -> avg (U i) = INR n * prob (gpat i) + shift i.
Proof. intro H. rewrite (average_ext all _ (fun pi => W i pi + D i pi)) by (intros; now apply U_split). now rewrite average_plus, avg_W, avg_D. Qed.
Lemma avg_UU i j : (i < 6)%nat -> (j < 6)%nat ->
  avg (fun pi => (U i pi - INR n * prob (gpat i)) * (U j pi - INR n * prob (gpat j))) =
  INR n * kern (gpat i) (gpat j) + (cross i j + cross j i + edge i j).
Proof.
  intros Hi Hj. set (bi := prob (gpat i)). set (bj := prob (gpat j)).
  rewrite (average_ext all _ (fun pi => (W i pi * W j pi + D i pi * W j pi + D j pi * W i pi + D i pi * D j pi) + ((- (INR n * bj)) * W i pi + (- (INR n * bi)) * W j pi + (- (INR n * bj)) * D i pi + (- (INR n * bi)) * D j pi) + (INR n * bi * (INR n * bj)) * 1)).
  2:{ intros pi _. rewrite !U_split by assumption. ring. }
  rewrite !average_plus, !average_scale, avg_WW, !avg_DW, avg_DD, !avg_W, !avg_D.
  assert (One : avg (fun _ => 1) = 1).
  { unfold average. pose proof (lists_length n all Hall) as P. assert (E : forall l : list (list nat), lsumR l (fun _ => 1) = INR (length l)) by (induction l as [|x l IH]; [reflexivity|]; cbn [lsumR length]; rewrite IH, S_INR; ring).
    rewrite E. field. lra. }
  rewrite One. fold bi bj. ring.
Qed.
End Moments.

(** ** falling runs are rising runs of the reversed order *)
Lemma place_rev pi x : NoDup pi -> In x pi -> (place (rev pi) x + place pi x = length pi - 1)%nat.
Proof.
  induction pi as [|y pi IH]; intros N I; [contradiction|]. cbn [rev place length]. inversion N as [|? ? Ny Np]; subst.
  destruct (Nat.eqb_spec y x) as [->|Ne].
  - rewrite place_app_r by (rewrite <- in_rev; exact Ny). cbn [place]. rewrite Nat.eqb_refl, rev_length. lia.
  - destruct I as [I|I]; [congruence|]. specialize (IH Np I). pose proof (place_app_l (rev pi) [y] x ltac:(rewrite <- in_rev; exact I)) as L.
    assert (E : place (rev pi ++ [y]) x = place (rev pi) x).
    { clear - I. assert (I' : In x (rev pi)) by (rewrite <- in_rev; exact I). revert I'. generalize (rev pi). clear. induction l as [|z l IH]; [intros []|]. cbn [app place In].
      destruct (Nat.eqb_spec z x); [reflexivity|]. intros [E|I]; [congruence|]. now rewrite IH. }
    rewrite E. pose proof (place_app_l pi [] x I) as L2. rewrite app_nil_r in L2. rewrite rev_length in *. lia.
Qed.
Lemma steps_rev n pi t : (2 <= n)%nat -> ordering n pi -> steps n (rev pi) t = negb (steps n pi t).
Proof.
  intros Hn O. assert (E : rises n (rev pi) t = negb (rises n pi t)).
  { unfold rises, before. pose proof (ordering_nodup n pi O) as N.
    assert (I : forall x, (x < n)%nat -> In x pi) by (intros; now apply (ordering_in n)).
    pose proof (Nat.mod_upper_bound t n ltac:(lia)) as B1. pose proof (Nat.mod_upper_bound (S t) n ltac:(lia)) as B2.
    pose proof (place_rev pi _ N (I _ B1)) as P1. pose proof (place_rev pi _ N (I _ B2)) as P2.
    assert (Ne : (t mod n <> S t mod n)%nat) by (intro K; apply (mod_inj n t) in K; lia).
    assert (place pi (t mod n) <> place pi (S t mod n))%nat by (intro K; apply place_inj in K; auto).
    pose proof (ordering_length n pi O). pose proof (place_app_l pi [] _ (I _ B1)) as L1. pose proof (place_app_l pi [] _ (I _ B2)) as L2. rewrite app_nil_r in L1, L2.
    apply eq_true_iff_eq. rewrite negb_true_iff, Nat.ltb_ge, Nat.ltb_lt. lia. }
  unfold steps. rewrite E. destruct (t =? n - 1)%nat; reflexivity.
Qed.
Lemma lsumR_perm {A} (l m : list A) f : Permutation l m -> lsumR l f = lsumR m f.
Proof. induction 1; cbn [lsumR]; lra. Qed.
Lemma average_rev n all f : lists_orderings n all -> average all (fun pi => f (rev pi)) = average all f.
Proof.
  intros (N & A). unfold average. f_equal. rewrite <- (lsumR_perm (map (@rev nat) all) all f).
  - clear. induction all as [|x l IH]; [reflexivity|]. cbn [map lsumR]. now rewrite IH.
  - apply NoDup_Permutation; [apply FinFun.Injective_map_NoDup; [intros x y E; rewrite <- (rev_involutive x), E; apply rev_involutive|exact N]|exact N|].
    intro pi. rewrite in_map_iff. split.
    + intros (q & <- & Q). apply A in Q. apply A. unfold ordering in *. rewrite <- Q. symmetry. apply Permutation_rev.
    + intro P. exists (rev pi). split; [apply rev_involutive|]. apply A in P. apply A. unfold ordering in *. rewrite <- P. symmetry. apply Permutation_rev.
Qed.

(** what the program counts *)
Lemma runs_of_U (rising : bool) n pi i : (2 <= n)%nat -> ordering n pi -> (i < 6)%nat -> runs_of rising n pi i = U n i (if rising then pi else rev pi).
Proof.
  intros Hn O Hi. unfold runs_of, runs_counted. destruct (count_runs_sum n pi Hn O) as (u & d & E & _ & _ & Hu & Hd). rewrite E. cbn [bind fst snd].
  unfold U. destruct rising; [now apply Hu|]. rewrite (Hd i Hi). apply rsum_ext. intros t Ht. f_equal. apply rhit_ext. intros k Hk. symmetry. now apply steps_rev.
Qed.
