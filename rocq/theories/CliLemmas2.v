(** Lemmas about running all tests and about the table of tests. *)
From Verif Require Import Base BaseLemmas FileModel CliModel CliSpec.
Open Scope N_scope.

Section Run.
Variable exec : Z -> N -> outcome unit.

Lemma perform_app a b : perform exec (a ++ b) = do _ <- perform exec a ;; perform exec b.
Proof.
  induction a as [|[num nt] t IH]; [reflexivity|]. cbn.
  destruct (exec num nt); cbn; auto.
Qed.

(** [body] does exactly the executions [l] and leaves ntuple alone. *)
Definition does (st : rstate) (l : list (Z * N)) : outcome rstate :=
  do _ <- perform exec l ;; Ok (rev l ++ fst st, snd st).

Lemma does_bind st l1 l2 :
  (do st' <- does st l1 ;; does st' l2) = does st (l1 ++ l2).
Proof.
  unfold does. rewrite perform_app. destruct (perform exec l1); cbn; auto.
  destruct (perform exec l2); cbn; auto.
  rewrite rev_app_distr, app_assoc. reflexivity.
Qed.

Lemma does_then st l (F G : rstate -> outcome rstate) :
  (forall tr, F (tr, snd st) = G (tr, snd st)) ->
  (do st' <- does st l ;; F st') = (do st' <- does st l ;; G st').
Proof. intros H. unfold does. destruct (perform exec l); cbn; auto. Qed.

Lemma does_nil st : does st [] = Ok st.
Proof. unfold does. destruct st. reflexivity. Qed.

Lemma execute_does num st : execute exec num st = does st [(num, snd st)].
Proof. destruct st as [tr nt]. unfold execute, does. cbn. destruct (exec num nt); reflexivity. Qed.

Lemma num_loop_does (body : Z -> rstate -> outcome rstate) (f : Z -> list (Z * N)) nt :
  forall count num tr,
  (forall k tr', (num <= k < num + Z.of_nat count)%Z -> body k (tr', nt) = does (tr', nt) (f k)) ->
  num_loop body count num (tr, nt) =
  does (tr, nt) (flat_map f (map (fun i => num + Z.of_nat i)%Z (seq 0 count))).
Proof.
  induction count as [|c IH]; intros num tr H.
  { reflexivity. }
  cbn [num_loop]. rewrite H by lia.
  replace (map (fun i => num + Z.of_nat i)%Z (seq 0 (S c)))
    with (num :: map (fun i => (num + 1) + Z.of_nat i)%Z (seq 0 c)).
  2: { cbn [seq map]. f_equal; [lia|]. rewrite <- seq_shift, map_map.
       apply map_ext. intros. lia. }
  cbn [flat_map]. rewrite <- does_bind. apply does_then. intros tr'. cbn [snd].
  apply IH. intros. apply H. lia.
Qed.

Lemma upto_cons a b : a <= b -> upto a b = a :: upto (a + 1) b.
Proof.
  intros H. unfold upto. replace (N.to_nat (b + 1 - a)) with (S (N.to_nat (b + 1 - (a + 1)))) by lia.
  cbn [seq map]. rewrite N2Nat.id. f_equal.
  replace (N.to_nat (a + 1)) with (S (N.to_nat a)) by lia. reflexivity.
Qed.
Lemma upto_empty a b : b < a -> upto a b = [].
Proof. intros H. unfold upto. replace (b + 1 - a) with 0 by lia. reflexivity. Qed.

Lemma ntuple_loop_does num ntmax : ntmax < 1000 ->
  forall fuel nt tr, nt <= ntmax + 1 -> (N.to_nat (ntmax + 1 - nt) < fuel)%nat ->
  ntuple_loop exec fuel num ntmax (tr, nt) =
  do _ <- perform exec (map (fun n => (num, n)) (upto nt ntmax)) ;;
  Ok (rev (map (fun n => (num, n)) (upto nt ntmax)) ++ tr, ntmax + 1).
Proof.
  intros B. induction fuel as [|f IH]; intros nt tr L F; [lia|].
  cbn [ntuple_loop]. destruct (N.leb_spec nt ntmax) as [H|H].
  - rewrite upto_cons by lia. cbn [map perform execute].
    destruct (exec num nt); cbn [bind fst snd]; auto.
    replace (add32 nt 1) with (nt + 1).
    2: { unfold add32, w32. rewrite N.mod_small; [reflexivity|].
         change (2 ^ 32) with 4294967296. lia. }
    rewrite IH by lia. destruct (perform exec _); cbn [bind]; auto.
    cbn [rev]. rewrite <- app_assoc. reflexivity.
  - rewrite upto_empty by lia. cbn. f_equal. f_equal. lia.
Qed.

Lemma ntuple_range_does num a b tr : b < 99 -> a <= b + 1 ->
  ntuple_range exec num a b (tr, 0) = does (tr, 0) (map (fun n => (num, n)) (upto a b)).
Proof.
  intros B A. unfold ntuple_range. cbn [fst]. rewrite ntuple_loop_does by lia.
  unfold does. destruct (perform exec _); reflexivity.
Qed.

Lemma registered_ok r num : length (r_types r) = 1000%nat -> (0 <= num < 1000)%Z ->
  registered r num = Ok (is_registered r num).
Proof.
  intros L H. unfold registered, is_registered.
  rewrite (aget_ok _ _ None) by lia. cbn.
  rewrite (nth_error_nth' _ None) by lia. reflexivity.
Qed.

Lemma execute_if_does r num st : length (r_types r) = 1000%nat -> (0 <= num < 1000)%Z ->
  execute_if exec r num st =
  does st (if is_registered r num then [(num, snd st)] else []).
Proof.
  intros L H. unfold execute_if. rewrite registered_ok by auto. cbn.
  destruct (is_registered r num); [apply execute_does | rewrite does_nil; reflexivity].
Qed.

Lemma run_other_does r num tr nt : length (r_types r) = 1000%nat -> (0 <= num < 1000)%Z ->
  run_other exec r num (tr, nt) =
  does (tr, nt) (if is_registered r num then map (fun n => (num, n)) (ntuples num nt) else []).
Proof.
  intros L H. unfold run_other, ntuples. cbn [snd].
  assert (D : (num <> 200 -> num <> 201 -> num <> 202 -> num <> 203 ->
     execute_if exec r num (tr, nt) =
     does (tr, nt) (if is_registered r num then [(num, nt)] else []))%Z).
  { intros. apply (execute_if_does r num (tr, nt)); auto. }
  destruct (Z.eqb_spec num 200) as [->|A].
  { rewrite registered_ok by auto. cbn [bind]. destruct (is_registered r 200); [|rewrite does_nil; reflexivity].
    destruct (N.eqb_spec nt 0) as [->|]; [apply ntuple_range_does; lia | apply execute_does]. }
  destruct (Z.eqb_spec num 201) as [->|A1].
  { rewrite registered_ok by auto. cbn [bind]. destruct (is_registered r 201); [|rewrite does_nil; reflexivity].
    destruct (N.eqb_spec nt 0) as [->|]; [apply ntuple_range_does; lia |].
    cbn [andb]. change (201 =? 202)%Z with false. cbn [andb].
    destruct ((nt <? 2) || (5 <? nt)).
    - unfold with_five. rewrite execute_does. unfold does. cbn. destruct (exec 201 5); reflexivity.
    - apply execute_does. }
  destruct (Z.eqb_spec num 202) as [->|A2].
  { rewrite registered_ok by auto. cbn [bind]. destruct (is_registered r 202); [|rewrite does_nil; reflexivity].
    destruct (N.eqb_spec nt 0) as [->|]; [apply ntuple_range_does; lia |].
    cbn [andb]. destruct (nt <? 2).
    - unfold with_five. rewrite execute_does. unfold does. cbn. destruct (exec 202 5); reflexivity.
    - apply execute_does. }
  destruct (Z.eqb_spec num 203) as [->|A3].
  { rewrite registered_ok by auto. cbn [bind]. destruct (is_registered r 203); [|rewrite does_nil; reflexivity].
    destruct (N.eqb_spec nt 0) as [->|]; [apply ntuple_range_does; lia | apply execute_does]. }
  assert (E : (if nt =? 0 then [0] else if false && ((nt <? 2) || (5 <? nt)) then [5]
               else if false && (nt <? 2) then [5] else [nt]) = [nt]).
  { cbn [andb]. destruct (N.eqb_spec nt 0) as [->|]; reflexivity. }
  rewrite E. cbn [map]. rewrite <- D by auto.
  clear - A A1 A2 A3.
  repeat match goal with
  | |- match ?n with _ => _ end = _ => destruct n; try reflexivity; try congruence
  end.
Qed.

Lemma flat_map_filter {A B} (p : A -> bool) (f : A -> list B) l :
  flat_map (fun x => if p x then f x else []) l = flat_map f (filter p l).
Proof. induction l as [|x t IH]; cbn; auto. destruct (p x); cbn; rewrite IH; reflexivity. Qed.
Lemma flat_map_single {A B} (f : A -> B) l : flat_map (fun x => [f x]) l = map f l.
Proof. induction l; cbn; congruence. Qed.

Lemma run_all_does r tr nt : length (r_types r) = 1000%nat ->
  r_diehard r <= 1000 -> r_sts r <= 900 -> r_other r <= 800 ->
  run_all_tests exec r (tr, nt) = does (tr, nt) (schedule r nt).
Proof.
  intros L H1 H2 H3. unfold run_all_tests.
  rewrite (num_loop_does (execute_if exec r)
    (fun num => if is_registered r num then [(num, nt)] else []) nt).
  2: { intros. rewrite execute_if_does by (auto; lia). reflexivity. }
  unfold schedule, numbers. rewrite flat_map_filter, flat_map_single.
  rewrite <- does_bind.
  apply does_then. intros tr1. cbn [snd].
  rewrite (num_loop_does (execute_if exec r)
    (fun num => if is_registered r num then [(num, nt)] else []) nt).
  2: { intros. rewrite execute_if_does by (auto; lia). reflexivity. }
  rewrite flat_map_filter, flat_map_single.
  rewrite <- does_bind.
  apply does_then. intros tr2. cbn [snd].
  rewrite (num_loop_does (run_other exec r)
    (fun num => if is_registered r num then map (fun n => (num, n)) (ntuples num nt) else []) nt).
  2: { intros. rewrite run_other_does by (auto; lia). reflexivity. }
  rewrite flat_map_filter. reflexivity.
Qed.
End Run.

(** ** The table of tests *)

(** What dieharder_test_types leaves in the table. *)
Definition standard : list (option dtest) :=
  map Some diehard_tests ++ repeat None 82 ++ map Some sts_tests ++ repeat None 97 ++
  map Some other_tests ++ repeat None 788.

Lemma test_types_ok r : length (r_types r) = 1000%nat ->
  dieharder_test_types r = Ok (mkreg standard 18 (plus_tests (r_sts r) sts_tests)
                                 (plus_tests (r_other r) other_tests) (r_user r)).
Proof.
  intros L. unfold dieharder_test_types. rewrite L. vm_compute (add_tests _ 0 _). 
  reflexivity.
Qed.
