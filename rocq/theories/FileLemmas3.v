(** Raw files, printed numbers, and the whole cycle. *)
From Verif Require Import Base BaseLemmas DoubleModel FileModel FileSpec FileLemmas FileLemmas2.
From Coq Require Import Permutation.
Local Open Scope N_scope.

(** ** Raw files *)
Lemma Words_length : forall bytes ws rest, Words bytes ws rest ->
  (length bytes = 4 * length ws + length rest /\ length rest < 4)%nat.
Proof.
  intros bytes ws rest H. induction H as [rest H|a b c d w t ws rest Hw H IH].
  - cbn. lia.
  - cbn [length]. lia.
Qed.

Lemma Words_div : forall bytes ws rest, Words bytes ws rest ->
  (Z.of_nat (length bytes) / 4 = Z.of_nat (length ws))%Z.
Proof.
  intros bytes ws rest H. destruct (Words_length _ _ _ H) as [E L]. rewrite E.
  symmetry. apply Z.div_unique with (r := Z.of_nat (length rest)); lia.
Qed.

Lemma Words_exists : forall n bytes, (length bytes <= n)%nat -> exists ws rest, Words bytes ws rest.
Proof.
  induction n as [|n IH]; intros bytes L.
  - destruct bytes; [|cbn in L; lia]. exists [], []. constructor. cbn. lia.
  - destruct bytes as [|a [|b [|c [|d t]]]];
      try (eexists [], _; constructor; cbn; lia).
    destruct (IH t ltac:(cbn in L; lia)) as (ws & rest & H).
    eexists (_ :: ws), rest. constructor; [reflexivity|exact H].
Qed.

Lemma fread_nth : forall bytes ws rest p, Words bytes ws rest -> (p < length ws)%nat ->
  fread_word (skipn (4 * p) bytes) = Some (nth p ws 0, skipn (4 * Datatypes.S p) bytes).
Proof.
  intros bytes ws rest p H. revert p. induction H as [rest H|a b c d w t ws rest Hw H IH]; intros p Hp.
  - cbn in Hp. lia.
  - destruct p as [|p].
    + change (4 * 1)%nat with 4%nat. change (4 * 0)%nat with 0%nat. cbn [skipn fread_word nth].
      rewrite Hw. change (2 ^ 8) with 256. change (2 ^ 16) with 65536. change (2 ^ 24) with 16777216. reflexivity.
    + cbn [length] in Hp. specialize (IH p ltac:(lia)).
      replace (4 * Datatypes.S (Datatypes.S p))%nat with (4 + 4 * Datatypes.S p)%nat by lia.
      replace (4 * Datatypes.S p)%nat with (4 + 4 * p)%nat by lia.
      replace (4 * Datatypes.S p)%nat with (4 + 4 * p)%nat in IH by lia.
      cbn [skipn nth plus] in *. exact IH.
Qed.

Lemma fread_end : forall bytes ws rest, Words bytes ws rest ->
  fread_word (skipn (4 * length ws) bytes) = None.
Proof.
  intros bytes ws rest H. induction H as [rest H|a b c d w t ws rest Hw H IH].
  - cbn [length Nat.mul skipn]. destruct rest as [|a [|b [|c [|d r]]]]; try reflexivity. cbn in H. lia.
  - cbn [length]. replace (4 * Datatypes.S (length ws))%nat with (4 + 4 * length ws)%nat by lia.
    cbn [plus skipn]. exact IH.
Qed.

Section Raw.
  Variable bytes ws rest : list N.
  Variable max_open : N.
  Hypothesis Hw : Words bytes ws rest.
  Variable flen : Z.

  Definition raw_at (p : nat) (total : N) (rew : N) : fstate :=
    {| f_fp := Some (skipn (4 * p) bytes); f_flen := flen; f_rptr := Z.of_nat p;
       f_rtot := Z.of_N total; f_rew := rew |}.

  (** A read in the middle, or of a stream whose length is not known. *)
  Lemma raw_step_mid : forall kind p total rew g, (p < length ws)%nat ->
    (Z.of_nat p < 2 ^ 63 - 1)%Z -> (Z.of_N total < 2 ^ 63 - 1)%Z ->
    (flen = 0 \/ Z.of_nat (Datatypes.S p) <> flen)%Z ->
    file_input_raw_get (Some bytes) max_open kind (raw_at p total rew) g =
      Ok (nth p ws 0, raw_at (Datatypes.S p) (total + 1) rew, g).
  Proof.
    intros kind p total rew g Hp Hz Ht Hf. unfold file_input_raw_get. cbn [f_fp raw_at].
    rewrite (fread_nth bytes ws rest p Hw Hp). cbn [f_rptr f_rtot f_flen f_rew raw_at].
    unfold incr_off. replace (Z.of_nat p <? 2 ^ 63 - 1)%Z with true by (symmetry; now apply Z.ltb_lt).
    replace (Z.of_N total <? 2 ^ 63 - 1)%Z with true by (symmetry; now apply Z.ltb_lt). cbn [bind].
    replace (negb (flen =? 0)%Z && (Z.of_nat p + 1 =? flen)%Z) with false.
    - unfold raw_at.
      replace (Z.of_nat p + 1)%Z with (Z.of_nat (Datatypes.S p)) by lia.
      replace (Z.of_N total + 1)%Z with (Z.of_N (total + 1)) by lia. reflexivity.
    - symmetry. apply andb_false_iff. destruct Hf as [->|Hf]; [now left|right].
      apply Z.eqb_neq. lia.
  Qed.

  Lemma raw_step_last : forall kind p total rew g, Datatypes.S p = length ws -> flen = Z.of_nat (length ws) ->
    (Z.of_nat p < 2 ^ 63 - 1)%Z -> (Z.of_N total < 2 ^ 63 - 1)%Z -> g_first g = false ->
    file_input_raw_get (Some bytes) max_open kind (raw_at p total rew) g =
      Ok (nth p ws 0, raw_at 0 (total + 1) (add32 rew 1), g).
  Proof.
    intros kind p total rew g Hp Hf Hz Ht Hg. unfold file_input_raw_get. cbn [f_fp raw_at].
    rewrite (fread_nth bytes ws rest p Hw ltac:(lia)). cbn [f_rptr f_rtot f_flen f_rew raw_at].
    unfold incr_off. replace (Z.of_nat p <? 2 ^ 63 - 1)%Z with true by (symmetry; now apply Z.ltb_lt).
    replace (Z.of_N total <? 2 ^ 63 - 1)%Z with true by (symmetry; now apply Z.ltb_lt). cbn [bind].
    replace (negb (flen =? 0)%Z && (Z.of_nat p + 1 =? flen)%Z) with true.
    - unfold file_input_raw_set, raw_first. rewrite Hg. cbn [bind]. change (negb (0 =? 0)) with false.
      cbn [andb f_fp f_flen f_rptr f_rtot f_rew]. cbn iota.
      replace (negb (flen =? 0)%Z && (flen <=? Z.of_nat p + 1)%Z) with true.
      + cbn [bind]. unfold raw_at. change (4 * 0)%nat with 0%nat. cbn [skipn].
        replace (Z.of_N total + 1)%Z with (Z.of_N (total + 1)) by lia. reflexivity.
      + symmetry. apply andb_true_iff. split; [apply negb_true_iff, Z.eqb_neq; lia|apply Z.leb_le; lia].
    - symmetry. apply andb_true_iff. split; [apply negb_true_iff, Z.eqb_neq; lia|apply Z.eqb_eq; lia].
  Qed.

  Lemma raw_reads : forall kind n p total rew g, flen = Z.of_nat (length ws) ->
    (Z.of_nat (length ws) < 2 ^ 61)%Z ->
    (p < length ws)%nat -> (Z.of_N total + Z.of_nat n < 2 ^ 63)%Z -> g_first g = false ->
    exists rew', reads (file_input_raw_get (Some bytes) max_open kind) n (raw_at p total rew) g =
      Ok (map (fun k => nth (Nat.modulo (p + k) (length ws)) ws 0) (seq 0 n),
          raw_at (Nat.modulo (p + n) (length ws)) (total + N.of_nat n) rew', g) /\
      (rew < 2 ^ 32 -> rew' = (rew + N.of_nat (Nat.div (p + n) (length ws))) mod 2 ^ 32).
  Proof.
    intros kind n. induction n as [|n IH]; intros p total rew g Hf HL Hp Ht Hg.
    - exists rew. cbn [reads seq map]. rewrite Nat.add_0_r, Nat.mod_small, Nat.div_small by exact Hp.
      rewrite !N.add_0_r. split; [reflexivity|]. intros Hr. now rewrite N.mod_small.
    - set (wp := if (Datatypes.S p =? length ws)%nat then 0%nat else Datatypes.S p).
      set (wr := if (Datatypes.S p =? length ws)%nat then add32 rew 1 else rew).
      assert (E1 : file_input_raw_get (Some bytes) max_open kind (raw_at p total rew) g =
                   Ok (nth p ws 0, raw_at wp (total + 1) wr, g)).
      { unfold wp, wr. destruct (Nat.eqb_spec (Datatypes.S p) (length ws)) as [Ew|Ew].
        - apply raw_step_last; try assumption; lia.
        - apply raw_step_mid; try assumption; lia. }
      cbn [reads]. rewrite E1. cbn [bind].
      assert (Hwp : (wp < length ws)%nat)
        by (unfold wp; destruct (Nat.eqb_spec (Datatypes.S p) (length ws)); lia).
      destruct (IH wp (total + 1) wr g Hf HL Hwp ltac:(lia) Hg) as (rew2 & E2 & V2).
      rewrite E2. cbn [bind]. exists rew2.
      assert (Hmod : forall k, ((wp + k) mod length ws = (p + Datatypes.S k) mod length ws)%nat).
      { intros k. unfold wp. destruct (Nat.eqb_spec (Datatypes.S p) (length ws)) as [Ew|Ew].
        - replace (p + Datatypes.S k)%nat with (k + 1 * length ws)%nat by lia.
          rewrite Nat.mod_add by lia. reflexivity.
        - f_equal. lia. }
      split.
      + cbn [seq map]. rewrite <- seq_shift, map_map. rewrite Nat.add_0_r, (Nat.mod_small p) by exact Hp.
        rewrite Hmod. replace (total + N.of_nat (Datatypes.S n)) with (total + 1 + N.of_nat n) by lia.
        rewrite (map_ext _ _ (fun k => f_equal (fun m => nth m ws 0) (Hmod k))). reflexivity.
      + intros Hr. rewrite V2.
        * unfold wr, wp. destruct (Nat.eqb_spec (Datatypes.S p) (length ws)) as [Ew|Ew].
          -- replace (p + Datatypes.S n)%nat with (n + 1 * length ws)%nat by lia.
             rewrite Nat.div_add by lia. unfold add32, w32. rewrite Nat.add_0_l.
             rewrite N.add_mod_idemp_l by discriminate. f_equal. lia.
          -- replace (Datatypes.S p + n)%nat with (p + Datatypes.S n)%nat by lia. reflexivity.
        * unfold wr. destruct (Datatypes.S p =? length ws)%nat; [|exact Hr].
          unfold add32, w32. apply N.mod_lt. discriminate.
  Qed.

  (** A stream whose length is not known ends the program at its end. *)
  Lemma raw_reads_plain : forall kind n p total rew g, flen = 0%Z ->
    (Z.of_nat (length ws) < 2 ^ 61)%Z -> (p + n <= length ws)%nat ->
    (Z.of_N total + Z.of_nat n < 2 ^ 63)%Z ->
    reads (file_input_raw_get (Some bytes) max_open kind) n (raw_at p total rew) g =
      Ok (map (fun k => nth (p + k) ws 0) (seq 0 n), raw_at (p + n) (total + N.of_nat n) rew, g).
  Proof.
    intros kind n. induction n as [|n IH]; intros p total rew g Hf HL Hp Ht.
    - cbn [reads seq map]. now rewrite Nat.add_0_r, N.add_0_r.
    - cbn [reads]. rewrite raw_step_mid by (auto; lia). cbn [bind].
      rewrite IH by (auto; lia). cbn [bind seq map]. rewrite <- seq_shift, map_map, Nat.add_0_r.
      replace (p + Datatypes.S n)%nat with (Datatypes.S p + n)%nat by lia.
      replace (total + N.of_nat (Datatypes.S n)) with (total + 1 + N.of_nat n) by lia.
      rewrite (map_ext (fun x => nth (p + Datatypes.S x) ws 0) (fun k => nth (Datatypes.S p + k) ws 0)).
      + reflexivity.
      + intros k. f_equal. lia.
  Qed.

  Lemma raw_end : forall kind total rew g,
    file_input_raw_get (Some bytes) max_open kind (raw_at (length ws) total rew) g = Exit 0.
  Proof.
    intros. unfold file_input_raw_get. cbn [f_fp raw_at]. now rewrite (fread_end bytes ws rest Hw).
  Qed.
End Raw.

(** ** Printed numbers *)
Lemma dec_numeral : forall fuel n, (n < 10 ^ N.of_nat fuel) -> (0 < fuel)%nat ->
  Numeral 10 (dec_digits fuel n) n /\ (length (dec_digits fuel n) <= fuel)%nat.
Proof.
  induction fuel as [|fuel IH]; intros n Hn Hf; [lia|]. cbn [dec_digits].
  destruct (N.ltb_spec n 10).
  - split; [|cbn; lia]. apply Numeral_one. constructor; lia.
  - assert (Hpow : 10 ^ N.of_nat (Datatypes.S fuel) = 10 * 10 ^ N.of_nat fuel).
    { replace (N.of_nat (Datatypes.S fuel)) with (N.succ (N.of_nat fuel)) by lia. apply N.pow_succ_r'. }
    rewrite Hpow in Hn.
    assert (Hq : n / 10 < 10 ^ N.of_nat fuel) by (apply N.div_lt_upper_bound; lia).
    assert (Hf' : (0 < fuel)%nat).
    { destruct fuel; [|lia]. change (10 ^ N.of_nat 0) with 1 in Hq. 
      assert (n / 10 = 0) by lia. apply N.div_small_iff in H0; lia. }
    destruct (IH (n / 10) Hq Hf') as [IHn IHl]. split.
    + assert (En : n / 10 * 10 + n mod 10 = n)
        by (rewrite (N.mul_comm (n / 10)); symmetry; apply N.div_mod; discriminate).
      pose proof (Numeral_snoc 10 (dec_digits fuel (n / 10)) (n / 10) (48 + n mod 10) (n mod 10) IHn) as G.
      rewrite En in G. apply G. pose proof (N.mod_lt n 10 ltac:(discriminate)).
      constructor; lia.
    + rewrite app_length. cbn [length]. lia.
Qed.

Lemma dec_chars : forall fuel n, Forall (fun c => 48 <= c /\ c <= 57) (dec_digits fuel n).
Proof.
  induction fuel as [|fuel IH]; intros n; [constructor|]. cbn [dec_digits].
  destruct (N.ltb_spec n 10).
  - constructor; [lia|constructor].
  - apply Forall_app. split; [apply IH|]. constructor; [|constructor].
    pose proof (N.mod_lt n 10 ltac:(discriminate)). lia.
Qed.

Lemma print_lu_numeral : forall n, n < 2 ^ 64 ->
  Numeral 10 (print_lu n) n /\ (length (print_lu n) <= 20)%nat.
Proof.
  intros n Hn. unfold print_lu. apply dec_numeral; [|lia].
  eapply N.lt_trans; [exact Hn|]. reflexivity.
Qed.

Lemma Forall_repeat : forall A (P : A -> Prop) x n, P x -> Forall P (repeat x n).
Proof. intros A P x n H. induction n; cbn; constructor; auto. Qed.

Lemma print_10u_line : forall n nb, n < 2 ^ 32 -> Data_line 100 nb (print_10u n ++ [10]) n.
Proof.
  intros n nb Hn. destruct (print_lu_numeral n ltac:(eapply N.lt_trans; [exact Hn|reflexivity])) as [H L].
  unfold print_10u. apply (Data_numeral 100 nb 10 (repeat 32 (10 - length (print_lu n))) [] (print_lu n) 10 []).
  - left. split; [now left|reflexivity].
  - apply Forall_repeat. now left.
  - now left.
  - exact H.
  - exact Hn.
  - right. lia.
  - now rewrite <- app_assoc.
  - exists (repeat 32 (10 - length (print_lu n)) ++ print_lu n). split; [reflexivity|]. split.
    + rewrite app_length, repeat_length. lia.
    + apply Forall_app. split; [apply Forall_repeat; lia|].
      eapply Forall_impl; [|apply dec_chars]. cbn. intros. lia.
Qed.

(** ** The header written by output_rnds *)
Lemma text_bytes : forall s, forallb (fun c => negb (c =? 0) && negb (c =? 10)) s = true ->
  Forall (fun c => c <> 0 /\ c <> 10) s.
Proof.
  intros s H. rewrite forallb_forall in H. apply Forall_forall. intros c Hc.
  specialize (H c Hc). apply andb_true_iff in H as [H1 H2].
  apply negb_true_iff, N.eqb_neq in H1, H2. auto.
Qed.

Lemma digits_text : forall ds, Forall (fun c => 48 <= c /\ c <= 57) ds ->
  Forall (fun c => c <> 0 /\ c <> 10) ds.
Proof. intros ds H. eapply Forall_impl; [|exact H]. cbn. intros. lia. Qed.

Lemma not_seps : forall f, forallb (fun c => negb (delim c)) f = true ->
  Forall (fun c => ~ separator c) f.
Proof.
  intros f H. rewrite forallb_forall in H. apply Forall_forall. intros c Hc.
  specialize (H c Hc). apply negb_true_iff in H. now apply delim_false.
Qed.

Lemma digits_not_seps : forall ds, Forall (fun c => 48 <= c /\ c <= 57) ds ->
  Forall (fun c => ~ separator c) ds.
Proof.
  intros ds H. eapply Forall_impl; [|exact H]. cbn. intros c Hc Hs. unfold separator in Hs. cbn in Hs.
  destruct Hs as [<-|[<-|[<-|[<-|[<-|[<-|[]]]]]]]; lia.
Qed.

(** "key: value" has two fields. *)
Lemma two_fields : forall k v, k <> [] -> v <> [] ->
  Forall (fun c => ~ separator c) k -> Forall (fun c => ~ separator c) v ->
  Fields separator (k ++ 58 :: 32 :: v) [k; v].
Proof.
  intros k v Hk Hv Nk Nv.
  change (k ++ 58 :: 32 :: v) with ([] ++ k ++ 58 :: 32 :: v).
  apply Fields_cons; auto.
  - right. exists 58, (32 :: v). split; [reflexivity|]. unfold separator. cbn. tauto.
  - replace (58 :: 32 :: v) with ([58; 32] ++ v ++ []) by (cbn; now rewrite app_nil_r).
    apply Fields_cons; auto.
    + repeat constructor; unfold separator; cbn; tauto.
    + constructor. constructor.
Qed.

Definition header_lines (t : N) (name : list N) (seed tsamples : N) : list (list N) :=
  [rule; bytes_of "# generator " ++ name ++ bytes_of "  seed = " ++ print_lu seed ++ [10]; rule;
   (bytes_of "type" ++ 58 :: 32 :: [t]) ++ [10];
   (bytes_of "count" ++ 58 :: 32 :: print_lu tsamples) ++ [10];
   (bytes_of "numbit" ++ 58 :: 32 :: bytes_of "32") ++ [10]].

Lemma out_header_lines : forall t name seed ts,
  out_header t name seed ts = concat (header_lines t name seed ts).
Proof.
  intros. unfold out_header, header_lines. cbn [concat]. rewrite app_nil_r.
  change (bytes_of "type: ") with (bytes_of "type" ++ [58; 32]).
  change (bytes_of "count: ") with (bytes_of "count" ++ [58; 32]).
  change (bytes_of "numbit: 32") with (bytes_of "numbit" ++ 58 :: 32 :: bytes_of "32").
  rewrite <- !app_assoc. cbn [app]. rewrite <- ?app_assoc. cbn [app]. reflexivity.
Qed.

Lemma header_lines_ok : forall t name seed ts, ~ separator t -> t <> 0 ->
  Forall (fun c => c <> 0 /\ c <> 10) name -> N.of_nat (length name) <= 900 ->
  seed < 2 ^ 64 -> 0 < ts -> ts < 2 ^ 31 ->
  Header (header_lines t name seed ts) t ts 32.
Proof.
  intros t name seed ts Ht Ht0 Hname Lname Hseed Hts Hts31.
  destruct (print_lu_numeral seed Hseed) as [Nseed Lseed].
  destruct (print_lu_numeral ts ltac:(eapply N.lt_trans; [exact Hts31|reflexivity])) as [Nts Lts].
  pose proof (dec_chars 20 seed) as Cseed. pose proof (dec_chars 20 ts) as Cts.
  change (dec_digits 20 seed) with (print_lu seed) in Cseed. change (dec_digits 20 ts) with (print_lu ts) in Cts.
  assert (Hrule : Header_line rule Comment).
  { apply Header_comment. exists (bytes_of "#==================================================================").
    split; [reflexivity|]. split; [cbv; discriminate|]. apply text_bytes. reflexivity. }
  exists [Comment; Comment; Comment; Type_is t; Count_is ts; Numbit_is 32].
  split; [|split].
  - unfold header_lines.
    constructor; [exact Hrule|]. constructor; [|constructor; [exact Hrule|]].
    { change (bytes_of "# generator " ++ name ++ bytes_of "  seed = " ++ print_lu seed ++ [10])
        with (35 :: (bytes_of " generator " ++ name ++ bytes_of "  seed = " ++ print_lu seed ++ [10])).
      apply Header_comment.
      exists (bytes_of "# generator " ++ name ++ bytes_of "  seed = " ++ print_lu seed).
      split; [rewrite <- !app_assoc; reflexivity|]. split.
      - rewrite !app_length. change (length (bytes_of "# generator ")) with 12%nat.
        change (length (bytes_of "  seed = ")) with 9%nat. lia.
      - repeat (apply Forall_app; split); try (apply text_bytes; reflexivity).
        + exact Hname.
        + now apply digits_text. }
    constructor; [|constructor; [|constructor; [|constructor]]].
    + apply (Header_type (bytes_of "type" ++ 58 :: 32 :: [t]) (bytes_of "type") t []).
      * exists (bytes_of "type" ++ 58 :: 32 :: [t]). split; [reflexivity|]. split; [cbn; lia|].
        apply Forall_app. split; [apply text_bytes; reflexivity|].
        repeat constructor; try discriminate; [exact Ht0|].
        intros ->. apply Ht. unfold separator. cbn. tauto.
      * apply two_fields; try discriminate; [apply not_seps; reflexivity|now constructor].
      * exists []. reflexivity.
      * cbn. lia.
      * cbn. lia.
    + apply (Header_count _ (bytes_of "count") (print_lu ts) ts).
      * exists (bytes_of "count" ++ 58 :: 32 :: print_lu ts). split; [reflexivity|]. split.
        { rewrite app_length. change (length (bytes_of "count")) with 5%nat. cbn [length]. lia. }
        apply Forall_app. split; [apply text_bytes; reflexivity|].
        constructor; [lia|]. constructor; [lia|]. now apply digits_text.
      * apply two_fields; [discriminate| |apply not_seps; reflexivity|now apply digits_not_seps].
        destruct (Numeral_head _ _ _ Nts) as (x & r & d & E & _). rewrite E. discriminate.
      * exists []. reflexivity.
      * exact Nts.
      * exact Hts31.
      * cbn. lia.
      * lia.
    + apply (Header_numbit _ (bytes_of "numbit") (bytes_of "32") 32).
      * exists (bytes_of "numbit" ++ 58 :: 32 :: bytes_of "32"). split; [reflexivity|].
        split; [cbn; lia|]. apply text_bytes. reflexivity.
      * apply two_fields; try discriminate; apply not_seps; reflexivity.
      * exists []. reflexivity.
      * change (bytes_of "32") with ([51] ++ [50]). change (Numeral 10 ([51] ++ [50]) (3 * 10 + 2)).
        apply Numeral_snoc; [|apply (Digit_dec 10 2); lia].
        apply Numeral_one. apply (Digit_dec 10 3); lia.
      * reflexivity.
      * cbn. lia.
      * cbn. lia.
  - exists [Comment; Comment; Comment; Type_is t; Count_is ts], (Numbit_is 32). split; [reflexivity|discriminate].
  - reflexivity.
Qed.

(** ** Words written by output_rnds *)
Lemma word_bytes_value : forall w, w < 2 ^ 32 ->
  w = w mod 256 + 2 ^ 8 * (w / 256 mod 256) + 2 ^ 16 * (w / 65536 mod 256) + 2 ^ 24 * (w / 16777216 mod 256).
Proof.
  intros w Hw.
  pose proof (N.div_mod w 256 ltac:(discriminate)) as E0.
  pose proof (N.div_mod (w / 256) 256 ltac:(discriminate)) as E1.
  pose proof (N.div_mod (w / 65536) 256 ltac:(discriminate)) as E2.
  assert (D1 : w / 256 / 256 = w / 65536) by (rewrite N.div_div by discriminate; reflexivity).
  assert (D2 : w / 65536 / 256 = w / 16777216) by (rewrite N.div_div by discriminate; reflexivity).
  rewrite D1 in E1. rewrite D2 in E2.
  assert (E3 : w / 16777216 mod 256 = w / 16777216).
  { apply N.mod_small. apply N.div_lt_upper_bound; [discriminate|]. exact Hw. }
  rewrite E3. change (2 ^ 8) with 256. change (2 ^ 16) with 65536. change (2 ^ 24) with 16777216.
  clear - E0 E1 E2. revert E0 E1 E2.
  generalize (w / 256) (w / 65536) (w / 16777216) (w mod 256) ((w / 256) mod 256) ((w / 65536) mod 256).
  intros. lia.
Qed.

Lemma words_concat : forall ws, Forall (fun w => w < 2 ^ 32) ws ->
  Words (concat (map word_bytes ws)) ws [].
Proof.
  induction ws as [|w ws IH]; intros H.
  - constructor. cbn. lia.
  - inversion H; subst. cbn [map concat]. unfold word_bytes at 1. cbn [app]. constructor; [|now apply IH].
    now apply word_bytes_value.
Qed.
