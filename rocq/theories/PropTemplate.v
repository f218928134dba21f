(** C163: the lag of the example test. *)
From Coq Require Import Lia.
From Verif Require Import BaseLemmas PropRgb.
From Verif Require Export TemplateModel.
Open Scope N_scope.

Section Template.
Variable A : arith.
Variable P : KsModel.num A -> KsModel.num A -> KsModel.num A.
Variable u : nat -> KsModel.num A.
(** The p-value of a list of deviates: their sum against the normal law of mean n/2 and
    variance n/12; and every (lag+1)-th of the numbers drawn after number [c]. *)
Definition sum_pvalue (l : list (KsModel.num A)) : KsModel.num A :=
  Xtest_eval A P {| xt_x := fold_left (nadd A) l (nint A 0);
                    xt_y := nmul A (nint A (Z.of_nat (length l))) (nlit A 5 10);
                    xt_sigma := nsqrt A (ndiv A (nint A (Z.of_nat (length l))) (nint A 12)) |}.
Definition every (lag c n : nat) : list (KsModel.num A) := map (fun t => u (c + (lag + 1) * t + lag)%nat) (seq 0 n).
(** The number of samples asked for. *)
Definition asked (o : options) (std : N) : nat := N.to_nat (if o_all o then std else if o_tsamples o =? 0 then std else o_tsamples o).

Lemma lagged_every lag n c : (Xtest_eval A P (lagged_xtest A u lag n c), snd (lagged (nadd A) u lag n (nint A 0) c)) = (sum_pvalue (every lag c n), (c + (lag + 1) * n)%nat).
Proof.
  unfold lagged_xtest. rewrite C72_lagged. cbn [fst snd]. unfold sum_pvalue. f_equal. f_equal.
  assert (L : length (every lag c n) = n) by (unfold every; now rewrite map_length, seq_length). rewrite L. reflexivity.
Qed.
Lemma asked_new o std : N.to_nat (t_tsamples (new_test o std)) = asked o std.
Proof. unfold new_test, asked. cbn [t_tsamples]. destruct (o_all o); [reflexivity|]. destruct (o_tsamples o =? 0); reflexivity. Qed.

(** The routine itself: every (lag+1)-th number, the lag being the test's ntuple. *)
Theorem C163_routine : forall t c,
  let lag := N.to_nat (t_ntuple t) in let n := N.to_nat (t_tsamples t) in
  user_template A P u t c = (sum_pvalue (every lag c n), (c + (lag + 1) * n)%nat).
Proof. intros t c lag n. apply lagged_every. Qed.
Lemma template_new o std c : user_template A P u (new_test o std) c = (sum_pvalue (every 0 c (asked o std)), (c + asked o std)%nat).
Proof.
  unfold user_template. rewrite asked_new. change (N.to_nat (t_ntuple (new_test o std))) with 0%nat. rewrite lagged_every. f_equal. lia.
Qed.
Lemma sums_new o std c : let lag := N.to_nat (o_ntuple o) in
  rgb_lagged_sums_test A P u o (new_test o std) c = (sum_pvalue (every lag c (asked o std)), (c + (lag + 1) * asked o std)%nat).
Proof. intro lag. unfold rgb_lagged_sums_test. cbn [t_tsamples t_ntuple]. change (if o_all o || (o_tsamples o =? 0) then std else o_tsamples o) with (t_tsamples (new_test o std)). rewrite asked_new. apply lagged_every. Qed.
(** Refuted: as run by the program the test adds up consecutive numbers,
    whatever -n and -x say ... *)
Theorem C163_lag_refuted : forall o c, run_600 A P u o c = (sum_pvalue (every 0 c (asked o 100000)), (c + asked o 100000)%nat).
Proof. intros o c. apply template_new. Qed.
(** ... while test 203, of the same design, takes the lag from -n. *)
Theorem C163_other : forall o c, let lag := N.to_nat (o_ntuple o) in
  run_203 A P u o c = (sum_pvalue (every lag c (asked o 1000000)), (c + (lag + 1) * asked o 1000000)%nat).
Proof. intros o c. apply sums_new. Qed.
End Template.

(** -t 3 -n 2: test 203 draws nine numbers, test 600 three. *)
Example C163_ex : let A := doubles (fun x _ => x) (fun x => x) in let u i := d_of_Z (Z.of_nat i) in
  let o := {| o_all := false; o_tsamples := 3; o_ntuple := 2; o_x := d_of_Z 2 |} in
  snd (run_203 A (fun x _ => x) u o 0) = 9%nat /\ snd (run_600 A (fun x _ => x) u o 0) = 3%nat /\
  every A u 2 0 3 = [u 2; u 5; u 8]%nat /\ every A u 0 0 3 = [u 0; u 1; u 2]%nat /\
  deq (fst (run_203 A (fun x _ => x) u o 0)) (fst (run_600 A (fun x _ => x) u o 0)) = false.
Proof.
  intros A u o. split; [|split; [|split; [|split]]].
  - unfold o. rewrite (C163_other A). reflexivity.
  - unfold o. rewrite (C163_lag_refuted A). reflexivity.
  - reflexivity.
  - reflexivity.
  - vm_compute. reflexivity.
Qed.

Print Assumptions C163_routine.
Print Assumptions C163_lag_refuted.
Print Assumptions C163_other.
