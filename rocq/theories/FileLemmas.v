(** Proofs about fgets, strtok/split and sscanf. *)
From Verif Require Import Base BaseLemmas FileModel FileSpec.
From Coq Require Import Permutation.
Local Open Scope N_scope.

(** ** fgets *)
Lemma take_line_body : forall body n rest,
  Forall (fun c => c <> 0 /\ c <> 10) body -> (length body < n)%nat ->
  take_line n (body ++ 10 :: rest) = (body ++ [10], rest).
Proof.
  induction body as [|c b IH]; intros n rest H L.
  - destruct n; [cbn in L; lia|]. reflexivity.
  - destruct n; [cbn in L; lia|]. inversion H as [|? ? [H0 H1] H2]; subst.
    cbn [app take_line]. replace (c =? 10) with false by (symmetry; now apply N.eqb_neq).
    cbn [length] in L. rewrite IH by (try assumption; lia). reflexivity.
Qed.

Lemma fgets_line : forall l rest, text_line l -> fgets_K (l ++ rest) = Some (l, rest).
Proof.
  intros l rest (body & -> & L & H). unfold fgets_K. rewrite <- app_assoc. cbn [app].
  rewrite take_line_body; [|exact H|lia]. destruct body; reflexivity.
Qed.

Lemma text_line_nonul : forall l, text_line l -> Forall (fun c => c <> 0) l.
Proof.
  intros l (body & -> & _ & H). apply Forall_app; split.
  - eapply Forall_impl; [|exact H]. now intros c [H1 _].
  - constructor; [discriminate|constructor].
Qed.

Lemma cstr_id : forall l, Forall (fun c => c <> 0) l -> cstr l = l.
Proof.
  induction l as [|c t IH]; intros H; [reflexivity|]. inversion H; subst. cbn [cstr].
  replace (c =? 0) with false by (symmetry; now apply N.eqb_neq). now rewrite IH.
Qed.

Lemma cstr_app : forall a b, Forall (fun c => c <> 0) a -> cstr (a ++ b) = a ++ cstr b.
Proof.
  induction a as [|c t IH]; intros b H; [reflexivity|]. inversion H; subst. cbn [cstr app].
  replace (c =? 0) with false by (symmetry; now apply N.eqb_neq). now rewrite IH.
Qed.

Lemma has_nul_app : forall a b, has_nul (a ++ b) = has_nul a || has_nul b.
Proof. induction a as [|c t IH]; intros b; [reflexivity|]. cbn. rewrite IH. apply orb_assoc. Qed.

Lemma text_line_nonempty : forall l, text_line l -> l <> [].
Proof. intros l (b & -> & _) E. now apply app_eq_nil in E as [_ E]. Qed.

Lemma text_line_len : forall l, text_line l -> (1 <= length l)%nat.
Proof. intros l H. apply text_line_nonempty in H. destruct l; [easy|cbn; lia]. Qed.

(** ** strtok *)
Lemma delim_sep : forall c, delim c = true <-> separator c.
Proof.
  intros c. unfold delim, separator. cbn [In]. rewrite !orb_true_iff, !N.eqb_eq. intuition congruence.
Qed.

Lemma delim_false : forall c, delim c = false <-> ~ separator c.
Proof.
  intros c. rewrite <- delim_sep. destruct (delim c); intuition congruence.
Qed.

Lemma tok_skip_seps : forall b l, Forall separator b -> tok_skip delim (b ++ l) = tok_skip delim l.
Proof.
  induction b as [|c b IH]; intros l H; [reflexivity|]. inversion H; subst. cbn [app tok_skip].
  apply delim_sep in H2. rewrite H2. now apply IH.
Qed.

Lemma tok_take_field : forall f rest, Forall (fun c => ~ separator c) f ->
  (rest = [] \/ exists c t, rest = c :: t /\ separator c) ->
  tok_take delim (f ++ rest) = (f, tl rest).
Proof.
  induction f as [|c f IH]; intros rest H Hr.
  - destruct Hr as [->|(c & t & -> & Hc)]; [reflexivity|]. cbn. apply delim_sep in Hc. now rewrite Hc.
  - inversion H; subst. cbn [app tok_take]. apply delim_false in H2. rewrite H2.
    rewrite IH by assumption. reflexivity.
Qed.

Lemma Fields_tl : forall rest fs, (rest = [] \/ exists c t, rest = c :: t /\ separator c) ->
  Fields separator rest fs -> Fields separator (tl rest) fs.
Proof.
  intros rest fs [->|(c & t & -> & Hc)] H; [exact H|]. cbn [tl].
  inversion H as [s Hs|before f r fs' Hb Hf Hns Hr HF E1 E2]; subst.
  - constructor. now inversion Hs.
  - destruct before as [|b before].
    + destruct f as [|x f]; [easy|]. cbn in E1. injection E1 as -> _. inversion Hns; now subst.
    + cbn in E1. injection E1 as Eb Et. subst b t. inversion Hb; subst. constructor; assumption.
Qed.

Lemma strtok_nil : forall s, Forall separator s -> strtok delim s = None.
Proof.
  intros s H. unfold strtok. rewrite <- (app_nil_r s), tok_skip_seps by exact H. reflexivity.
Qed.

Lemma strtok_field : forall b f rest, Forall separator b -> f <> [] ->
  Forall (fun c => ~ separator c) f ->
  (rest = [] \/ exists c t, rest = c :: t /\ separator c) ->
  strtok delim (b ++ f ++ rest) = Some (f, tl rest).
Proof.
  intros b f rest Hb Hf Hns Hr. unfold strtok. rewrite tok_skip_seps by exact Hb.
  destruct f as [|c f]; [easy|]. inversion Hns as [|? ? Hc _]; subst.
  apply delim_false in Hc. cbn [app tok_skip]. rewrite Hc.
  change (c :: f ++ rest) with ((c :: f) ++ rest). rewrite tok_take_field; auto.
Qed.

(** Every string has fields, and only one list of them. *)
Lemma sep_dec : forall c, {separator c} + {~ separator c}.
Proof.
  intros c. destruct (delim c) eqn:E; [left; now apply delim_sep|right; now apply delim_false].
Qed.

Lemma Fields_exists_len : forall n s, (length s <= n)%nat -> exists fs, Fields separator s fs.
Proof.
  induction n as [|n IH]; intros s L.
  - destruct s; [exists []; constructor; constructor|cbn in L; lia].
  - destruct s as [|c s]; [exists []; constructor; constructor|].
    destruct (IH s ltac:(cbn in L; lia)) as (fs & F).
    destruct (sep_dec c) as [Hc|Hc].
    + exists fs. inversion F; subst.
      * constructor; now constructor.
      * change (c :: before ++ f ++ rest) with ((c :: before) ++ f ++ rest).
        constructor; auto.
    + inversion F as [? Hs|before f r fs' Hb Hf Hns Hr HF E1 E2]; subst.
      * exists [[c]]. change (c :: s) with ([] ++ [c] ++ s).
        apply Fields_cons; [constructor|discriminate|now repeat constructor| |now constructor].
        destruct s as [|d t]; [now left|right]. exists d, t. inversion Hs; subst. auto.
      * destruct before as [|b before].
        -- exists ((c :: f) :: fs'). cbn [app]. change (c :: f ++ r) with ([] ++ (c :: f) ++ r).
           apply Fields_cons; [constructor|discriminate|now constructor|assumption|assumption].
        -- exists ([c] :: f :: fs').
           change (c :: (b :: before) ++ f ++ r) with ([] ++ [c] ++ ((b :: before) ++ f ++ r)).
           apply Fields_cons; [constructor|discriminate|now repeat constructor| |exact F].
           right. exists b, (before ++ f ++ r). inversion Hb; subst. auto.
Qed.

Lemma Fields_exists : forall s, exists fs, Fields separator s fs.
Proof. intros s. now apply (Fields_exists_len (length s)). Qed.

Lemma Fields_unique : forall fs s gs, Fields separator s fs -> Fields separator s gs -> fs = gs.
Proof.
  induction fs as [|f fs IH]; intros s gs F G.
  - inversion F; subst. pose proof (strtok_nil _ H) as E.
    inversion G; subst; [reflexivity|]. rewrite strtok_field in E by assumption. discriminate.
  - inversion F as [|b1 f1 r1 fs1 Hb1 Hf1 Hn1 Hr1 HF1 E1 E2]; subst.
    pose proof (strtok_field b1 f r1 Hb1 Hf1 Hn1 Hr1) as E.
    inversion G as [s Hs E3|b2 f2 r2 fs2 Hb2 Hf2 Hn2 Hr2 HF2 E3 E4]; subst.
    + rewrite strtok_nil in E by assumption. discriminate.
    + rewrite <- E3, strtok_field in E by assumption. injection E as <- Er.
      f_equal. apply (IH (tl r1)); [now apply Fields_tl|]. rewrite <- Er. now apply Fields_tl.
Qed.

Lemma Fields_nonul : forall s fs, Fields separator s fs -> Forall (fun c => c <> 0) s ->
  Forall (Forall (fun c => c <> 0)) fs.
Proof.
  intros s fs F. induction F as [s0 Hs0|before f rest fs Hb Hf Hns Hr HF IH]; intros H; [constructor|].
  apply Forall_app in H as [_ H]. apply Forall_app in H as [H1 H2]. constructor; auto.
Qed.

(** ** split *)
Lemma strncpy_row_len : forall n s, length (strncpy_row n s) = n.
Proof. intros n s. unfold strncpy_row. rewrite app_length, firstn_length, repeat_length. lia. Qed.

Lemma tl_length : forall (r : list N), (length (tl r) <= length r)%nat.
Proof. destruct r; cbn; lia. Qed.

Lemma split_loop_ok : forall fs rest i buf fuel,
  Fields separator rest fs -> (length rest < fuel)%nat -> length buf = N.to_nat PK -> i <= 1023 ->
  exists buf', split_loop fuel rest i buf = Ok (N.min (i + N.of_nat (length fs)) 1023, buf') /\
    length buf' = N.to_nat PK /\
    forall j, nth j buf' [] =
      if (N.to_nat i <=? j)%nat && (j <? N.to_nat (N.min (i + N.of_nat (length fs)) 1023))%nat
      then strncpy_row PBUF (nth (j - N.to_nat i) fs []) else nth j buf [].
Proof.
  induction fs as [|f fs IH]; intros rest i buf fuel F L Lb Hi.
  - inversion F; subst. destruct fuel as [|fuel]; [lia|]. cbn [split_loop length].
    rewrite strtok_nil by assumption. exists buf.
    replace (N.min (i + N.of_nat 0) 1023) with i by lia.
    split; [now destruct (i <? PK - 1)|]. split; [assumption|]. intros j.
    destruct (Nat.leb_spec (N.to_nat i) j), (Nat.ltb_spec j (N.to_nat i)); cbn [andb]; auto; lia.
  - inversion F as [|b1 f1 r1 fs1 Hb1 Hf1 Hn1 Hr1 HF1 E1 E2]; subst.
    destruct fuel as [|fuel]; [lia|]. cbn [split_loop].
    destruct (N.ltb_spec i (PK - 1)) as [Hlt|Hge]; unfold PK in *.
    + rewrite strtok_field by assumption. 
      rewrite (aset_ok buf (Z.of_N i)) by (rewrite ?Lb; lia). cbn [bind].
      destruct (IH (tl r1) (i + 1) (set_nth buf (Z.to_nat (Z.of_N i)) (strncpy_row PBUF f)) fuel)
        as (buf' & E & L' & Hn).
      * now apply Fields_tl.
      * pose proof (tl_length r1). rewrite !app_length in L.
        destruct f; [easy|]. cbn [length] in L. lia.
      * now rewrite set_nth_length.
      * lia.
      * exists buf'. cbn [length]. rewrite E.
        replace (i + 1 + N.of_nat (length fs)) with (i + N.of_nat (Datatypes.S (length fs))) in * by lia.
        split; [reflexivity|]. split; [assumption|]. intros j. rewrite Hn. clear Hn E IH F.
        replace (Z.to_nat (Z.of_N i)) with (N.to_nat i) by lia.
        destruct (Nat.eq_dec j (N.to_nat i)) as [->|Hne].
        -- replace (N.to_nat (i + 1) <=? N.to_nat i)%nat with false by (symmetry; apply Nat.leb_gt; lia).
           rewrite Nat.leb_refl. cbn [andb].
           replace (N.to_nat i <? _)%nat with true
             by (symmetry; apply Nat.ltb_lt; lia).
           rewrite nth_set_nth_eq by (rewrite Lb; lia). now rewrite Nat.sub_diag.
        -- rewrite nth_set_nth_ne by auto.
           destruct (Nat.leb_spec (N.to_nat i) j).
           ++ replace (N.to_nat (i + 1) <=? j)%nat with true by (symmetry; apply Nat.leb_le; lia).
              replace (j - N.to_nat i)%nat with (Datatypes.S (j - N.to_nat (i + 1))) by lia. reflexivity.
           ++ replace (N.to_nat (i + 1) <=? j)%nat with false by (symmetry; apply Nat.leb_gt; lia).
              reflexivity.
    + exists buf. cbn [length]. assert (i = 1023) by lia. subst i.
      replace (N.min (1023 + N.of_nat (Datatypes.S (length fs))) 1023) with 1023 by lia.
      split; [reflexivity|]. split; [assumption|]. intros j.
      destruct (Nat.leb_spec (N.to_nat 1023) j), (Nat.ltb_spec j (N.to_nat 1023)); cbn [andb]; auto; lia.
Qed.

Lemma split_ok : forall s fs buf,
  Fields separator s fs -> length buf = N.to_nat PK ->
  exists buf', split s buf = Ok (N.min (N.of_nat (length fs)) 1023, buf') /\
    length buf' = N.to_nat PK /\
    (forall j, (j < N.to_nat (N.min (N.of_nat (length fs)) 1023))%nat ->
       nth j buf' [] = strncpy_row PBUF (nth j fs [])) /\
    (fs <> [] -> nth (N.to_nat (N.min (N.of_nat (length fs)) 1023)) buf' [] = repeat 0 PBUF) /\
    (forall j, (N.to_nat (N.min (N.of_nat (length fs)) 1023) < j)%nat \/ fs = [] ->
       nth j buf' [] = nth j buf []).
Proof.
  intros s fs buf F Lb. inversion F as [? Hs|b1 f1 r1 fs1 Hb1 Hf1 Hn1 Hr1 HF1 E1 E2]; subst.
  - exists buf. unfold split. rewrite strtok_nil by assumption. cbn [length].
    split; [reflexivity|]. split; [assumption|]. repeat split; easy.
  - unfold split. rewrite strtok_field by assumption.
    rewrite (aset_ok buf 0%Z) by (rewrite ?Lb; unfold PK; lia). cbn [bind].
    destruct (split_loop_ok fs1 (tl r1) 1 (set_nth buf (Z.to_nat 0) (strncpy_row PBUF f1))
                (Datatypes.S (length (tl r1)))) as (buf' & E & L' & Hn).
    { now apply Fields_tl. } { lia. } { now rewrite set_nth_length. } { lia. }
    rewrite E. cbn [bind length].
    replace (1 + N.of_nat (length fs1)) with (N.of_nat (Datatypes.S (length fs1))) in * by lia.
    set (m := N.min (N.of_nat (Datatypes.S (length fs1))) 1023) in *.
    assert (Hm : 1 <= m <= 1023) by (unfold m; lia). clearbody m.
    rewrite (aset_ok buf' (Z.of_N m)) by (rewrite ?L'; unfold PK; lia). cbn [bind].
    eexists. split; [reflexivity|]. rewrite set_nth_length. split; [assumption|].
    replace (Z.to_nat (Z.of_N m)) with (N.to_nat m) by lia.
    unfold PK in *. split; [|split].
    + intros j Hj. rewrite nth_set_nth_ne by lia. rewrite Hn.
      destruct j as [|j].
      * replace (N.to_nat 1 <=? 0)%nat with false by reflexivity. cbn [andb].
        change (Z.to_nat 0) with 0%nat. rewrite nth_set_nth_eq by (rewrite Lb; lia). reflexivity.
      * replace (N.to_nat 1 <=? Datatypes.S j)%nat with true by reflexivity.
        replace (Datatypes.S j <? N.to_nat m)%nat with true by (symmetry; apply Nat.ltb_lt; lia).
        cbn [andb]. replace (Datatypes.S j - N.to_nat 1)%nat with j by lia. reflexivity.
    + intros _. now rewrite nth_set_nth_eq by (rewrite L'; lia).
    + intros j [Hj|Hj]; [|easy]. rewrite nth_set_nth_ne by lia. rewrite Hn.
      replace (j <? N.to_nat m)%nat with false by (symmetry; apply Nat.ltb_ge; lia).
      rewrite andb_false_r. change (Z.to_nat 0) with 0%nat. rewrite nth_set_nth_ne by lia. reflexivity.
Qed.

(** The string found in a row. *)
Lemma skipn_nth : forall (buf : list (list N)) j, (j < length buf)%nat ->
  skipn j buf = nth j buf [] :: skipn (Datatypes.S j) buf.
Proof.
  induction buf as [|r buf IH]; intros j H; [cbn in H; lia|].
  destruct j; [reflexivity|]. cbn [length] in H. cbn [skipn nth]. rewrite IH by lia. reflexivity.
Qed.

Lemma has_nul_repeat : forall k, (0 < k)%nat -> has_nul (repeat 0 k) = true.
Proof. destruct k; [lia|]. reflexivity. Qed.

Lemma cstr_repeat : forall k rest, (0 < k)%nat -> cstr (repeat 0 k ++ rest) = [].
Proof. destruct k; [lia|]. reflexivity. Qed.

Lemma field_short : forall buf j f, (j < length buf)%nat -> nth j buf [] = strncpy_row PBUF f ->
  (length f < PBUF)%nat -> Forall (fun c => c <> 0) f -> field_at buf j = Ok f.
Proof.
  intros buf j f Hj E L H. unfold field_at. rewrite skipn_nth by exact Hj. cbn [concat].
  rewrite E. unfold strncpy_row. rewrite firstn_all2 by lia.
  rewrite !has_nul_app, has_nul_repeat by lia. rewrite orb_true_r. cbn [orb].
  rewrite <- app_assoc, cstr_app by exact H. rewrite cstr_repeat by lia. now rewrite app_nil_r.
Qed.

Lemma has_nul_false : forall l, Forall (fun c => c <> 0) l -> has_nul l = false.
Proof.
  induction l as [|c l IH]; intros H; [reflexivity|]. inversion H; subst. cbn.
  rewrite IH by assumption. replace (c =? 0) with false by (symmetry; now apply N.eqb_neq). reflexivity.
Qed.

Lemma Forall_firstn : forall A (P : A -> Prop) n l, Forall P l -> Forall P (firstn n l).
Proof.
  intros A P n. induction n as [|n IH]; intros l H; [constructor|].
  destruct l; [constructor|]. inversion H; subst. cbn. constructor; auto.
Qed.

Lemma field_long : forall buf j f, (j < length buf)%nat -> nth j buf [] = strncpy_row PBUF f ->
  (PBUF <= length f)%nat -> Forall (fun c => c <> 0) f ->
  field_at buf j = do s <- field_at buf (Datatypes.S j) ;; Ok (firstn PBUF f ++ s).
Proof.
  intros buf j f Hj E L H. unfold field_at at 1. rewrite skipn_nth by exact Hj. cbn [concat].
  rewrite E. unfold strncpy_row. replace (PBUF - length f)%nat with 0%nat by lia. cbn [repeat].
  rewrite app_nil_r. pose proof (Forall_firstn _ _ PBUF _ H) as Hf.
  rewrite has_nul_app, has_nul_false by exact Hf. cbn [orb]. rewrite cstr_app by exact Hf.
  unfold field_at. destruct (has_nul (concat (skipn (Datatypes.S j) buf))); reflexivity.
Qed.

(** ** Numerals *)
Lemma Digit_value : forall base c d, base <= 16 -> Digit base c d -> digit_in base c = Some d.
Proof.
  intros base c d Hb H. unfold digit_in, digit_value. inversion H; subst.
  - replace ((48 <=? 48 + d) && (48 + d <=? 57)) with true by (symmetry; apply andb_true_iff; lia).
    replace (48 + d - 48) with d by lia. now replace (d <? base) with true by (symmetry; apply N.ltb_lt; lia).
  - replace ((48 <=? 87 + d) && (87 + d <=? 57)) with false by (symmetry; apply andb_false_iff; lia).
    replace ((97 <=? 87 + d) && (87 + d <=? 102)) with true by (symmetry; apply andb_true_iff; lia).
    replace (87 + d - 87) with d by lia. now replace (d <? base) with true by (symmetry; apply N.ltb_lt; lia).
  - replace ((48 <=? 55 + d) && (55 + d <=? 57)) with false by (symmetry; apply andb_false_iff; lia).
    replace ((97 <=? 55 + d) && (55 + d <=? 102)) with false by (symmetry; apply andb_false_iff; lia).
    replace ((65 <=? 55 + d) && (55 + d <=? 70)) with true by (symmetry; apply andb_true_iff; lia).
    replace (55 + d - 55) with d by lia. now replace (d <? base) with true by (symmetry; apply N.ltb_lt; lia).
Qed.

Lemma digits_numeral : forall base ds n rest cnt acc, base <= 16 -> Numeral base ds n ->
  digits base (ds ++ rest) cnt acc =
  digits base rest (cnt + N.of_nat (length ds)) (acc * base ^ N.of_nat (length ds) + n).
Proof.
  intros base ds n rest cnt acc Hb H. revert rest cnt acc.
  induction H as [c d Hd|ds n c d Hn IH Hd]; intros rest cnt acc.
  - cbn [app digits length]. rewrite (Digit_value _ _ _ Hb Hd).
    change (N.of_nat 1) with 1. now rewrite N.pow_1_r.
  - rewrite <- app_assoc, IH. cbn [app digits]. rewrite (Digit_value _ _ _ Hb Hd).
    rewrite app_length. cbn [length]. f_equal; [lia|].
    replace (N.of_nat (length ds + 1)) with (N.succ (N.of_nat (length ds))) by lia.
    rewrite N.pow_succ_r'. ring.
Qed.

Lemma Numeral_head : forall base ds n, Numeral base ds n ->
  exists c t d, ds = c :: t /\ Digit base c d.
Proof.
  intros base ds n H. induction H as [c d Hd|ds n c d Hn (c' & t & d' & E & H')  Hd].
  - exists c, [], d. auto.
  - subst ds. exists c', (t ++ [c]), d'. auto.
Qed.

Lemma Digit_range : forall base c d, Digit base c d ->
  (48 <= c /\ c <= 57) \/ (65 <= c /\ c <= 70) \/ (97 <= c /\ c <= 102).
Proof. intros base c d H. inversion H; subst; lia. Qed.

Lemma Digit_range10 : forall base c d, base <= 10 -> Digit base c d -> 48 <= c /\ c <= 57.
Proof. intros base c d Hb H. inversion H; subst; lia. Qed.

Lemma Numeral_second : forall base ds n c c2 t, Numeral base ds n -> ds = c :: c2 :: t ->
  exists d, Digit base c2 d.
Proof.
  intros base ds n c c2 t H. revert c c2 t. induction H as [c d Hd|ds n c d Hn IH Hd]; intros a b t E.
  - discriminate.
  - destruct ds as [|x [|y ds]].
    + inversion Hn; subst. destruct ds; discriminate.
    + cbn in E. injection E as -> -> _. now exists d.
    + cbn in E. injection E as -> -> _. now apply (IH a b ds).
Qed.

Lemma blank_space : forall c, blank c <-> isspace c = true.
Proof.
  intros c. unfold blank, isspace. rewrite orb_true_iff, andb_true_iff, N.eqb_eq, !N.leb_le. tauto.
Qed.

Lemma skip_blank : forall b l, Forall blank b -> skip_space (b ++ l) = skip_space l.
Proof.
  induction b as [|c b IH]; intros l H; [reflexivity|]. inversion H; subst. cbn [app skip_space].
  apply blank_space in H2. rewrite H2. now apply IH.
Qed.

Lemma isspace_digit : forall base c d, Digit base c d -> isspace c = false.
Proof.
  intros base c d H. apply Digit_range in H. unfold isspace.
  apply orb_false_iff. split; [apply N.eqb_neq; lia|]. apply andb_false_iff.
  right. apply N.leb_gt. lia.
Qed.

Lemma blank_not_digit : forall base c, blank c -> digit_in base c = None.
Proof.
  intros base c H. unfold digit_in, digit_value.
  replace ((48 <=? c) && (c <=? 57)) with false by (symmetry; apply andb_false_iff; unfold blank in H; lia).
  replace ((97 <=? c) && (c <=? 102)) with false by (symmetry; apply andb_false_iff; unfold blank in H; lia).
  replace ((65 <=? c) && (c <=? 70)) with false by (symmetry; apply andb_false_iff; unfold blank in H; lia).
  reflexivity.
Qed.

Lemma scan_digits_ok : forall base ds n rest, base <= 16 -> Numeral base ds n -> n < 2 ^ 32 ->
  (forall c t, rest = c :: t -> blank c) ->
  scan_digits base false (ds ++ rest) = ScanOk n.
Proof.
  intros base ds n rest Hb H Hn Hr. unfold scan_digits.
  rewrite (digits_numeral base ds n rest 0 0 Hb H).
  assert (E : digits base rest (0 + N.of_nat (length ds)) (0 * base ^ N.of_nat (length ds) + n)
              = (N.of_nat (length ds), n)).
  { destruct rest as [|c t]; cbn [digits].
    - f_equal; lia.
    - rewrite blank_not_digit by (eapply Hr; reflexivity). f_equal; lia. }
  rewrite E. destruct (Numeral_head _ _ _ H) as (c & t & d & -> & _).
  replace (N.of_nat (length (c :: t)) =? 0) with false by (symmetry; apply N.eqb_neq; cbn [length]; lia).
  replace (2 ^ 32 <=? n) with false by (symmetry; apply N.leb_gt; lia). reflexivity.
Qed.

Lemma scan_uint_ok : forall base before prefix ds n c after,
  base <= 16 -> Forall blank before ->
  (prefix = [] \/ (base = 16 /\ In prefix [[48; 120]; [48; 88]])) ->
  Numeral base ds n -> n < 2 ^ 32 -> blank c ->
  scan_uint base (before ++ prefix ++ ds ++ c :: after) = ScanOk n.
Proof.
  intros base before prefix ds n c after Hb Hbl Hp H Hn Hc. unfold scan_uint.
  rewrite skip_blank by exact Hbl.
  destruct (Numeral_head _ _ _ H) as (x & t & d & E & Hd).
  assert (Hrest : forall c' t', c :: after = c' :: t' -> blank c') by (intros ? ? E'; now injection E' as <- _).
  destruct Hp as [->|[-> Hp]].
  - cbn [app]. rewrite E. cbn [app skip_space]. rewrite (isspace_digit _ _ _ Hd).
    pose proof (Digit_range _ _ _ Hd) as R.
    replace (x =? 43) with false by (symmetry; apply N.eqb_neq; lia).
    replace (x =? 45) with false by (symmetry; apply N.eqb_neq; lia).
    assert (G : scan_digits base false (x :: t ++ c :: after) = ScanOk n).
    { change (x :: t ++ c :: after) with ((x :: t) ++ c :: after). rewrite <- E.
      apply scan_digits_ok; assumption. }
    unfold scan_body. destruct (t ++ c :: after) as [|y r] eqn:Er; [exact G|].
    assert (Hy : y <> 120 /\ y <> 88).
    { destruct t as [|y' t'].
      - cbn in Er. injection Er as -> _. unfold blank in Hc. lia.
      - cbn in Er. injection Er as -> _. destruct (Numeral_second _ _ _ _ _ _ H E) as (d' & Hd').
        apply Digit_range in Hd'. lia. }
    replace ((y =? 120) || (y =? 88)) with false.
    { rewrite andb_false_r. exact G. }
    symmetry. apply orb_false_iff. split; apply N.eqb_neq; tauto.
  - assert (G : scan_digits 16 false (ds ++ c :: after) = ScanOk n)
      by (apply scan_digits_ok; assumption).
    destruct Hp as [<-|[<-|[]]]; cbn [app]; exact G.
Qed.

Lemma atoi_numeral : forall ds n, Numeral 10 ds n -> n < 2 ^ 31 -> atoi ds = Ok (Z.of_N n).
Proof.
  intros ds n H Hn. unfold atoi. destruct (Numeral_head _ _ _ H) as (x & t & d & E & Hd).
  rewrite E. cbn [skip_space]. rewrite (isspace_digit _ _ _ Hd).
  pose proof (Digit_range _ _ _ Hd) as R.
  replace (x =? 43) with false by (symmetry; apply N.eqb_neq; lia).
  replace (x =? 45) with false by (symmetry; apply N.eqb_neq; lia).
  rewrite <- E. rewrite <- (app_nil_r ds), (digits_numeral 10 ds n [] 0 0) by (try assumption; lia).
  cbn [digits].
  replace (0 * 10 ^ N.of_nat (length ds) + n) with n by lia.
  replace ((- 2 ^ 31 <=? Z.of_N n) && (Z.of_N n <? 2 ^ 31))%Z with true; [reflexivity|].
  symmetry. apply andb_true_iff. split; [apply Z.leb_le; lia|apply Z.ltb_lt; lia].
Qed.

(** Binary digits. *)
Lemma bit2uint_ok : forall ds n rest k acc, Numeral 2 ds n ->
  bit2uint (length ds + k) (ds ++ rest) acc =
  bit2uint k rest (fold_left (fun a c => u32_of_Z (2 * Z.of_N a + Z.of_N (c - 48))) ds acc).
Proof.
  intros ds n rest k acc H. 
  assert (Hall : Forall (fun c => c = 48 \/ c = 49) ds).
  { induction H as [c d Hd|ds n c d Hn IH Hd].
    - constructor; [|constructor]. inversion Hd; subst; lia.
    - apply Forall_app. split; [exact IH|]. constructor; [|constructor]. inversion Hd; subst; lia. }
  clear H. revert acc. induction ds as [|c ds IH]; intros acc; [reflexivity|].
  inversion Hall as [|? ? Hc Hds]; subst. cbn [length app fold_left plus bit2uint]. rewrite IH by exact Hds.
  replace (2 * Z.of_N acc + (if (c <? 128)%N then Z.of_N c else Z.of_N c - 256) - 48)%Z
    with (2 * Z.of_N acc + Z.of_N (c - 48))%Z; [reflexivity|].
  destruct (N.ltb_spec c 128); lia.
Qed.

Lemma binary_value : forall ds n, Numeral 2 ds n -> (length ds <= 32)%nat ->
  fold_left (fun a c => u32_of_Z (2 * Z.of_N a + Z.of_N (c - 48))) ds 0 = n /\ n < 2 ^ N.of_nat (length ds).
Proof.
  intros ds n H. induction H as [c d Hd|ds n c d Hn IH Hd]; intros L.
  - inversion Hd; subst; [|lia|lia]. cbn [fold_left length]. replace (48 + d - 48) with d by lia.
    unfold u32_of_Z. rewrite Z.mod_small by lia. change (2 ^ N.of_nat 1) with 2. lia.
  - rewrite app_length in L. cbn [length] in L. destruct IH as [E B]; [lia|].
    rewrite fold_left_app, E. clear E. cbn [fold_left]. inversion Hd; subst; [|lia|lia].
    replace (48 + d - 48) with d by lia.
    rewrite app_length. cbn [length].
    replace (N.of_nat (length ds + 1)) with (N.succ (N.of_nat (length ds))) by lia.
    rewrite N.pow_succ_r'.
    assert (2 ^ N.of_nat (length ds) <= 2 ^ 31) by (apply N.pow_le_mono_r; lia).
    assert (Hz : (2 * Z.of_N n + Z.of_N d < 2 ^ 32)%Z).
    { assert (Hn31 : n < 2 ^ 31) by (eapply N.lt_le_trans; eassumption).
      change (2 ^ 31) with 2147483648 in Hn31. change (2 ^ 32)%Z with 4294967296%Z.
      clear - Hn31 H0. lia. }
    unfold u32_of_Z. rewrite Z.mod_small by (clear - Hz; lia).
    set (m := 2 ^ N.of_nat (length ds)) in *. clearbody m. clear - B H0. lia.
Qed.
