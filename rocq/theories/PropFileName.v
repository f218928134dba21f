(** C140: the file named with -f. *)
From Verif Require Import Base BaseLemmas FileModel CliModel CliSpec CliLemmas CliLemmas2.
Open Scope N_scope.

(** The arguments of the -f options, in order. *)
Definition f_args (os : list copt) : list (list N) := flat_map (fun o => match o with Optf s => [s] | _ => [] end) os.

Lemma project_file os c c' : parse_options c os = Ok c' ->
  fold_left (fun a s => do x <- a ;; Ok (Some (strncpy name_length s))) (f_args os) (Ok (c_file c)) = Ok (c_file c').
Proof.
  apply (project c_file (fun o => match o with Optf s => [s] | _ => [] end) (fun _ s => Ok (Some (strncpy name_length s)))).
  intros a o b E. destruct o; parse_case E.
Qed.
Lemma parsecl_file os c : parsecl os = Ok c ->
  fold_left (fun a s => do x <- a ;; Ok (Some (strncpy name_length s))) (f_args os) (Ok None) = Ok (c_file c).
Proof.
  intro H. apply parsecl_inv in H as (c' & P & H). apply project_file in P. cbn [c_file cli0] in P.
  assert (c_file c = c_file c') as -> by (rewrite H; destruct (_ =? 0)%Z; reflexivity). exact P.
Qed.
Lemma last_file l s a : fold_left (fun a s => do x <- a ;; Ok (Some (strncpy name_length s))) (l ++ [s]) (Ok a) = Ok (Some (firstn 128 s)).
Proof.
  rewrite fold_left_app. cbn [fold_left]. assert (G : forall l a, exists b, fold_left (fun a s => do x <- a ;; Ok (Some (strncpy name_length s))) l (Ok a) = Ok b).
  { induction l0 as [|x t IH]; intro b; [now exists b|]. cbn [fold_left bind]. apply IH. }
  destruct (G l a) as (b & ->). reflexivity.
Qed.

(** Without -f there is no file; the file is the one named last. *)
Theorem C140_file os c : parsecl os = Ok c ->
  (f_args os = [] -> c_file c = None) /\
  (forall before s, f_args os = before ++ [s] -> (length s <= 128)%nat -> c_file c = Some s).
Proof.
  intro H. apply parsecl_file in H. split.
  - intro E. rewrite E in H. cbn [fold_left] in H. congruence.
  - intros l s E L. rewrite E, last_file, firstn_all2 in H by exact L. congruence.
Qed.
(** Of a longer name only the first 128 characters are kept: another file is
    read, or written, without a message. *)
Theorem C140_file_refuted os c before s : parsecl os = Ok c -> f_args os = before ++ [s] -> (128 < length s)%nat ->
  exists t, c_file c = Some t /\ length t = 128%nat /\ t <> s /\ exists u, s = t ++ u.
Proof.
  intros H E L. apply parsecl_file in H. rewrite E, last_file in H. exists (firstn 128 s). split; [congruence|].
  assert (K : length (firstn 128 s) = 128%nat) by (rewrite firstn_length; lia). split; [exact K|]. split.
  - intro X. rewrite X in K. lia.
  - exists (skipn 128 s). symmetry. apply firstn_skipn.
Qed.
Example C140_ex : let s := repeat 97 129 in
  (exists c, parsecl [Optf (bytes_of "data.bin")] = Ok c /\ c_file c = Some (bytes_of "data.bin")) /\
  exists c, parsecl [Optg (bytes_of "201"); Optf s] = Ok c /\ f_args [Optg (bytes_of "201"); Optf s] = [] ++ [s] /\ (128 < length s)%nat /\ c_file c = Some (repeat 97 128).
Proof. split; [eexists; split; vm_compute; reflexivity|]. eexists. split; [vm_compute; reflexivity|]. repeat split. cbn [repeat length]. lia. Qed.
Print Assumptions C140_file.
Print Assumptions C140_file_refuted.
