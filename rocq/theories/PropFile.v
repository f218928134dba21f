(** Properties C23-C26 and C76-C78: number files. *)
From Coq Require Import Permutation Reals Lra.
From Flocq Require Import Core.Raux IEEE754.BinarySingleNaN.
From Verif Require Import Base BaseLemmas DoubleModel DoubleLemmas DoubleLemmas2
  FileModel FileSpec FileLemmas FileLemmas2 FileLemmas3.
Local Open Scope N_scope.

(** ** C26: splitting a line into fields *)

(** Every line has exactly one list of fields. *)
Theorem C26_fields : forall s, exists! fs, Fields separator s fs.
Proof.
  intros s. destruct (Fields_exists s) as (fs & F). exists fs. split; [exact F|].
  intros gs G. eapply Fields_unique; eassumption.
Qed.

(** split() finds the first 1023 of them, in order: it returns their number,
    each row of splitbuf holds the first 128 characters of its field padded
    with NULs, the next row is all NULs and the others keep their contents.
    Nothing outside the array is written. *)
Theorem C26_split : forall s fs buf,
  Fields separator s fs -> length buf = N.to_nat 1024 ->
  exists n buf', split s buf = Ok (n, buf') /\ n = N.min (N.of_nat (length fs)) 1023 /\
    length buf' = N.to_nat 1024 /\
    (forall j, (j < N.to_nat n)%nat -> let f := nth j fs [] in
       nth j buf' [] = firstn 128 f ++ repeat 0 (128 - length f)) /\
    (fs <> [] -> nth (N.to_nat n) buf' [] = repeat 0 128) /\
    (forall j, (N.to_nat n < j)%nat \/ fs = [] -> nth j buf' [] = nth j buf []).
Proof.
  intros s fs buf F L. destruct (split_ok s fs buf F L) as (buf' & E & L' & A & B & C).
  eexists _, buf'. split; [exact E|]. split; [reflexivity|]. split; [exact L'|].
  split; [exact A|]. split; [exact B|exact C].
Qed.
Example C26_split_ex :
  match split (bytes_of " count:  12,x") (repeat (repeat 7 128) 1024) with
  | Ok (n, buf) => n = 3 /\ length buf = 1024%nat /\
      (field_at buf 0, field_at buf 1, field_at buf 2, field_at buf 3) =
      (Ok (bytes_of "count"), Ok (bytes_of "12"), Ok (bytes_of "x"), Ok [])
  | _ => False end.
Proof. vm_compute. repeat split. Qed.

(** A field of at most 127 characters is found again as a C string. *)
Theorem C26_strings : forall s fs buf j,
  Fields separator s fs -> Forall (fun c => c <> 0) s -> length buf = N.to_nat 1024 ->
  (j < length fs)%nat -> (j < N.to_nat 1023)%nat -> (length (nth j fs []) <= 127)%nat ->
  exists n buf', split s buf = Ok (n, buf') /\ field_at buf' j = Ok (nth j fs []).
Proof.
  intros s fs buf j F Z L J J' S. destruct (split_ok s fs buf F L) as (buf' & E & L' & A & _).
  eexists _, buf'. split; [exact E|]. apply field_short.
  - rewrite L'. unfold PK. lia.
  - apply A. lia.
  - unfold PBUF. lia.
  - pose proof (Fields_nonul _ _ F Z) as H. rewrite Forall_forall in H. apply H. now apply nth_In.
Qed.

(** A longer field is cut after 128 characters but not terminated: the string
    found at its place goes on with the next field. *)
Theorem C26_long_refuted : forall s fs buf j,
  Fields separator s fs -> Forall (fun c => c <> 0) s -> length buf = N.to_nat 1024 ->
  (S j < length fs)%nat -> (S j < N.to_nat 1023)%nat ->
  (128 <= length (nth j fs []))%nat -> (length (nth (S j) fs []) <= 127)%nat ->
  exists n buf', split s buf = Ok (n, buf') /\
    field_at buf' j = Ok (firstn 128 (nth j fs []) ++ nth (S j) fs []).
Proof.
  intros s fs buf j F Z L J J' S1 S2. destruct (split_ok s fs buf F L) as (buf' & E & L' & A & _).
  pose proof (Fields_nonul _ _ F Z) as H. rewrite Forall_forall in H.
  eexists _, buf'. split; [exact E|].
  rewrite (field_long buf' j (nth j fs [])).
  - rewrite (field_short buf' (S j) (nth (S j) fs [])).
    + reflexivity.
    + rewrite L'. unfold PK. lia.
    + apply A. lia.
    + unfold PBUF. lia.
    + apply H. now apply nth_In.
  - rewrite L'. unfold PK. lia.
  - apply A. lia.
  - unfold PBUF. lia.
  - apply H. apply nth_In. lia.
Qed.
Example C26_long_ex :
  match split (repeat 65 130 ++ bytes_of " xyz") (repeat (repeat 0 128) 1024) with
  | Ok (n, buf) => n = 2 /\ field_at buf 0 = Ok (repeat 65 128 ++ bytes_of "xyz")
  | _ => False end.
Proof. vm_compute. split; reflexivity. Qed.

(** ** C23: reading a number file *)

(** For a file that consists of a header giving the type, the count c of
    numbers and the number of bits, of c data lines and of anything after
    them: opening it and reading n times returns the numbers in order,
    starting again after the last one; the position, total and rewind counters
    count the reads. *)
Theorem C23_cyclic : forall header t numbit data values tail max_open scan_lg st0 g0 s n,
  values <> [] -> Header header t (N.of_nat (length values)) numbit ->
  Forall2 (Data_line t numbit) data values ->
  (st0 = fresh \/ s <> 0) -> g_open g0 < max_open -> length (g_split g0) = N.to_nat 1024 ->
  (Z.of_nat n < 2 ^ 63)%Z ->
  let contents := Some (concat header ++ concat data ++ tail) in
  let c := length values in
  exists st g st' g',
    file_input_set contents max_open st0 g0 s = Ok (st, g) /\ g_count g = Z.of_nat c /\
    reads (file_input_get contents max_open scan_lg) n st g = Ok (cyclically values n, st', g') /\
    f_rptr st' = Z.of_nat (Nat.modulo n c) /\ get_rtot st' = Z.of_nat n /\
    f_rew st' = N.of_nat (Nat.div n c) mod 2 ^ 32.
Proof.
  intros header t numbit data values tail max_open scan_lg st0 g0 s n Hne HH HD Hs Ho Hb Hn contents c.
  destruct (set_fresh (concat header ++ concat data ++ tail) max_open scan_lg header t numbit data values tail
              HH eq_refl st0 g0 s Hs Ho Hb) as (g & E & R & _ & _).
  destruct (reads_from (concat header ++ concat data ++ tail) max_open scan_lg header t numbit data values
              tail HH (Data_readable scan_lg _ _ _ _ HD) eq_refl n 0 0 0 g) as (g' & rew & E' & V & R' & _).
  - destruct values; [easy|cbn; lia].
  - lia.
  - exact R.
  - exists (at_position data values tail 0 0 0), g, (at_position data values tail (Nat.modulo n c) (N.of_nat n) rew), g'.
    split; [exact E|]. split.
    { destruct R as (_ & _ & _ & R). rewrite R. unfold c. lia. }
    rewrite Nat.add_0_l, N.add_0_l in E'. split; [exact E'|].
    split; [reflexivity|]. split; [unfold get_rtot, at_position; cbn [f_rtot]; lia|].
    cbn [at_position f_rew]. rewrite V by reflexivity. rewrite N.add_0_l, Nat.add_0_l. reflexivity.
Qed.

(** The rewind count used by the report is the number of times the end of the
    file had been passed when the last number was read. *)
Theorem C23_rewinds : forall header t numbit data values tail max_open scan_lg st0 g0 s n,
  values <> [] -> Header header t (N.of_nat (length values)) numbit ->
  Forall2 (Data_line t numbit) data values ->
  (st0 = fresh \/ s <> 0) -> g_open g0 < max_open -> length (g_split g0) = N.to_nat 1024 ->
  (Z.of_nat n < 2 ^ 63)%Z -> N.of_nat (Nat.div n (length values)) < 2 ^ 32 ->
  let contents := Some (concat header ++ concat data ++ tail) in
  exists st g st' g' out,
    file_input_set contents max_open st0 g0 s = Ok (st, g) /\
    reads (file_input_get contents max_open scan_lg) n st g = Ok (out, st', g') /\
    get_rewind_cnt st' = N.of_nat (Nat.div (Nat.pred n) (length values)).
Proof.
  intros header t numbit data values tail max_open scan_lg st0 g0 s n Hne HH HD Hs Ho Hb Hn Hr contents.
  destruct (C23_cyclic header t numbit data values tail max_open scan_lg st0 g0 s n Hne HH HD Hs Ho Hb Hn)
    as (st & g & st' & g' & E1 & _ & E2 & P & _ & R).
  exists st, g, st', g', (cyclically values n). split; [exact E1|]. split; [exact E2|].
  rewrite N.mod_small in R by exact Hr. unfold get_rewind_cnt. rewrite R, P.
  assert (Hc : (length values <> 0)%nat) by (destruct values; easy).
  set (c := length values) in *. clearbody c. clear - Hc.
  pose proof (Nat.div_mod n c Hc) as DM. pose proof (Nat.mod_upper_bound n c Hc) as MB.
  destruct (Nat.eq_dec (n mod c) 0) as [Z0|Z0].
  - rewrite Z0 in *. replace (Z.of_nat 0 =? 0)%Z with true by reflexivity. rewrite andb_true_r.
    destruct (N.ltb_spec 0 (N.of_nat (n / c))) as [H|H].
    + assert (Hp : Nat.div (Nat.pred n) c = Nat.pred (Nat.div n c)).
      { symmetry. apply Nat.div_unique with (r := Nat.pred c); [lia|].
        destruct (Nat.div n c) as [|q]; [lia|]. cbn [Nat.pred]. rewrite DM.
        rewrite Nat.mul_succ_r. lia. }
      rewrite Hp. lia.
    + assert (Hq : Nat.div n c = 0%nat) by lia. rewrite Hq in *. rewrite Nat.mul_0_r in DM.
      replace n with 0%nat by lia. cbn [Nat.pred]. now rewrite Nat.div_0_l.
  - replace (Z.of_nat (n mod c) =? 0)%Z with false by (symmetry; apply Z.eqb_neq; lia).
    rewrite andb_false_r. f_equal. apply Nat.div_unique with (r := Nat.pred (Nat.modulo n c)).
    + clear - MB. revert MB. generalize (Nat.modulo n c). intros. lia.
    + clear - DM Z0. revert DM Z0. generalize (Nat.modulo n c) (Nat.div n c). intros m q DM Z0.
      rewrite DM. generalize (c * q)%nat. intros. lia.
Qed.

(** A concrete file that meets the hypotheses. *)
Definition ex_header : list (list N) :=
  [bytes_of "# made by hand" ++ [10]; bytes_of "count: 3" ++ [10]; bytes_of "type: u" ++ [10];
   bytes_of "# bits" ++ [10]; bytes_of "numbit: 32" ++ [10]].
Definition ex_data : list (list N) := [bytes_of "17" ++ [10]; bytes_of " 4294967295 " ++ [10]; bytes_of "0" ++ [10]].
Definition g_init : fglobals :=
  {| g_type := 0; g_count := 0; g_numbits := 0; g_split := repeat (repeat 0 128) 1024;
     g_first := true; g_open := 0 |}.

Lemma numeral_dec : forall ds n, fst (digits 10 ds 0 0) = N.of_nat (length ds) -> ds <> [] ->
  snd (digits 10 ds 0 0) = n -> Numeral 10 ds n.
Proof.
  assert (G : forall ds cnt acc, fst (digits 10 ds cnt acc) = cnt + N.of_nat (length ds) ->
            Forall (fun c => exists d, Digit 10 c d /\ digit_in 10 c = Some d) ds).
  { induction ds as [|c ds IH]; intros cnt acc H; [constructor|]. cbn [digits] in H.
    destruct (digit_in 10 c) as [d|] eqn:E; [|cbn [fst length] in H; lia].
    constructor; [|eapply (IH (cnt + 1)); rewrite H; cbn [length]; lia].
    exists d. split; [|exact E]. unfold digit_in, digit_value in E.
    destruct ((48 <=? c) && (c <=? 57)) eqn:E1.
    - apply andb_true_iff in E1 as [A B]. apply N.leb_le in A, B.
      destruct (N.ltb_spec (c - 48) 10); [|discriminate]. injection E as <-.
      replace c with (48 + (c - 48)) at 1 by lia. constructor; lia.
    - destruct ((97 <=? c) && (c <=? 102)) eqn:E2.
      + apply andb_true_iff in E2 as [A B]. apply N.leb_le in A, B.
        destruct (N.ltb_spec (c - 87) 10); [lia|discriminate].
      + destruct ((65 <=? c) && (c <=? 70)) eqn:E3; [|discriminate].
        apply andb_true_iff in E3 as [A B]. apply N.leb_le in A, B.
        destruct (N.ltb_spec (c - 55) 10); [lia|discriminate]. }
  intros ds n H Hne <-. specialize (G ds 0 0 ltac:(rewrite H; lia)). clear H.
  induction ds as [|c ds IH] using rev_ind; [easy|].
  apply Forall_app in G as [G1 G2]. inversion G2 as [|? ? (d & Hd & Ed) _]; subst.
  destruct ds as [|c' ds].
  - cbn [app digits]. rewrite Ed. cbn [snd]. change (0 * 10 + d) with (0 + d). rewrite N.add_0_l. now constructor.
  - assert (Hne' : c' :: ds <> []) by discriminate. specialize (IH G1 Hne').
    rewrite (digits_numeral 10 _ _ [c] 0 0 ltac:(lia) IH). cbn [digits]. rewrite Ed. cbn [snd].
    rewrite N.mul_0_l, N.add_0_l. now apply Numeral_snoc.
Qed.

Ltac text_solver := match goal with
  |- text_line (?s ++ [10]) => exists s; split; [reflexivity|split; [cbv; discriminate|apply text_bytes; reflexivity]] end.

Lemma ex_header_ok : Header ex_header 117 3 32.
Proof.
  exists [Comment; Count_is 3; Type_is 117; Comment; Numbit_is 32]. split; [|split].
  - repeat constructor.
    + exists (bytes_of "# made by hand"). split; [reflexivity|split; [cbv; discriminate|apply text_bytes; reflexivity]].
    + apply (Header_count _ (bytes_of "count") (bytes_of "3")); try (cbv; discriminate); try reflexivity.
      * text_solver.
      * apply (two_fields (bytes_of "count") (bytes_of "3")); try discriminate; apply not_seps; reflexivity.
      * now exists [].
      * apply numeral_dec; [reflexivity|discriminate|reflexivity].
    + apply (Header_type _ (bytes_of "type") 117 []); try (cbv; discriminate); try reflexivity.
      * text_solver.
      * apply (two_fields (bytes_of "type") (bytes_of "u")); try discriminate; apply not_seps; reflexivity.
      * now exists [].
    + exists (bytes_of "# bits"). split; [reflexivity|split; [cbv; discriminate|apply text_bytes; reflexivity]].
    + apply (Header_numbit _ (bytes_of "numbit") (bytes_of "32")); try (cbv; discriminate); try reflexivity.
      * text_solver.
      * apply (two_fields (bytes_of "numbit") (bytes_of "32")); try discriminate; apply not_seps; reflexivity.
      * now exists [].
      * apply numeral_dec; [reflexivity|discriminate|reflexivity].
  - exists [Comment; Count_is 3; Type_is 117; Comment], (Numbit_is 32). split; [reflexivity|discriminate].
  - cbn. apply perm_swap.
Qed.

Lemma ex_data_ok : Forall2 (Data_line 117 32) ex_data [17; 4294967295; 0].
Proof.
  repeat constructor.
  - apply (Data_numeral 117 32 10 [] [] (bytes_of "17") 10 []); try reflexivity; auto.
    + left. cbn. auto.
    + apply numeral_dec; [reflexivity|discriminate|reflexivity].
    + right. lia.
    + text_solver.
  - apply (Data_numeral 117 32 10 [32] [] (bytes_of "4294967295") 32 [10]); try reflexivity; auto.
    + left. cbn. auto.
    + repeat constructor.
    + apply numeral_dec; [reflexivity|discriminate|reflexivity].
    + now left.
    + text_solver.
  - apply (Data_numeral 117 32 10 [] [] (bytes_of "0") 10 []); try reflexivity; auto.
    + left. cbn. auto.
    + apply numeral_dec; [reflexivity|discriminate|reflexivity].
    + right. lia.
    + text_solver.
Qed.

Example C23_cyclic_ex :
  let contents := Some (concat ex_header ++ concat ex_data) in
  match file_input_set contents 10 fresh g_init 5 with
  | Ok (st, g) =>
      match reads (file_input_get contents 10 (fun _ => ScanFail)) 7 st g with
      | Ok (out, st', _) => out = [17; 4294967295; 0; 17; 4294967295; 0; 17] /\
          (f_rptr st', get_rtot st', f_rew st', get_rewind_cnt st') = (1%Z, 7%Z, 2, 2)
      | _ => False
      end
  | _ => False end.
Proof. vm_compute. split; reflexivity. Qed.

(** ** C24: raw files *)

(** A regular file with at least sixteen complete words, in the first
    generator of the process. *)
Theorem C24_cyclic : forall bytes ws rest max_open st0 g0 s n,
  Words bytes ws rest -> (16 <= length ws)%nat -> (Z.of_nat (length ws) < 2 ^ 61)%Z ->
  g_first g0 = true -> g_open g0 < max_open -> (st0 = fresh \/ s <> 0) -> (Z.of_nat n < 2 ^ 63)%Z ->
  let c := length ws in
  exists st g st',
    file_input_raw_set (Some bytes) max_open Regular st0 g0 s = Ok (st, g) /\ g_count g = Z.of_nat c /\
    reads (file_input_raw_get (Some bytes) max_open Regular) n st g = Ok (cyclically ws n, st', g) /\
    f_rptr st' = Z.of_nat (Nat.modulo n c) /\ get_rtot st' = Z.of_nat n /\
    f_rew st' = N.of_nat (Nat.div n c) mod 2 ^ 32.
Proof.
  intros bytes ws rest max_open st0 g0 s n W L HL Hf Ho Hs Hn c.
  unfold file_input_raw_set, raw_first. rewrite Hf. cbn [negb].
  rewrite (Words_div _ _ _ W). replace (Z.of_nat (length ws) <? 16)%Z with false by (symmetry; apply Z.ltb_ge; lia).
  cbn [bind f_fp]. rewrite andb_false_r. unfold fopen. cbn [g_open].
  replace (g_open g0 <? max_open) with true by (symmetry; now apply N.ltb_lt).
  eexists _, _.
  set (g1 := {| g_type := g_type g0; g_count := Z.of_nat (length ws); g_numbits := g_numbits g0;
                g_split := g_split g0; g_first := false; g_open := g_open g0 + 1 |}).
  destruct (raw_reads bytes ws rest max_open W (Z.of_nat (length ws)) Regular n 0 0 0 g1
              eq_refl HL ltac:(lia) ltac:(lia) eq_refl) as (rew & E & V).
  exists (raw_at bytes (Z.of_nat c) (Nat.modulo n c) (N.of_nat n) rew).
  split; [reflexivity|]. split; [reflexivity|]. split.
  - rewrite Nat.add_0_l, N.add_0_l in E. refine (eq_trans _ E).
    f_equal. unfold raw_at. cbn [f_flen f_rtot f_rew Nat.mul skipn].
    destruct Hs as [->|Hs]; [now destruct (s =? 0)|].
    replace (s =? 0) with false by (symmetry; now apply N.eqb_neq). reflexivity.
  - split; [reflexivity|]. split; [unfold get_rtot, raw_at; cbn [f_rtot]; lia|].
    cbn [raw_at f_rew]. rewrite V by reflexivity. now rewrite N.add_0_l, Nat.add_0_l.
Qed.
Example C24_cyclic_ex :
  let bytes := map N.of_nat (seq 1 67) in
  match file_input_raw_set (Some bytes) 10 Regular fresh g_init 5 with
  | Ok (st, g) =>
      match reads (file_input_raw_get (Some bytes) 10 Regular) 18 st g with
      | Ok (out, st', _) => nth 0 out 0 = 67305985 /\ nth 15 out 0 = 1077886525 /\
          nth 16 out 0 = 67305985 /\ (f_rptr st', f_rew st') = (2%Z, 1)
      | _ => False
      end
  | _ => False end.
Proof. vm_compute. repeat split. Qed.

(** Files of fewer than sixteen words are refused. *)
Theorem C24_small_refuted : forall bytes max_open st0 g0 s,
  (length bytes < 64)%nat -> g_first g0 = true ->
  file_input_raw_set (Some bytes) max_open Regular st0 g0 s = Exit 0.
Proof.
  intros bytes max_open st0 g0 s L Hf. unfold file_input_raw_set, raw_first. rewrite Hf.
  replace (Z.of_nat (length bytes) / 4 <? 16)%Z with true; [reflexivity|].
  symmetry. apply Z.ltb_lt. apply Z.div_lt_upper_bound; lia.
Qed.

(** The length is only determined for the first generator of the process: a
    second one does not wrap but ends the program after the last word. *)
Theorem C24_second_refuted : forall bytes ws rest max_open g0 s,
  Words bytes ws rest -> (Z.of_nat (length ws) < 2 ^ 61)%Z ->
  g_first g0 = false -> g_open g0 < max_open ->
  exists st g st',
    file_input_raw_set (Some bytes) max_open Regular fresh g0 s = Ok (st, g) /\
    reads (file_input_raw_get (Some bytes) max_open Regular) (length ws) st g = Ok (ws, st', g) /\
    file_input_raw_get (Some bytes) max_open Regular st' g = Exit 0.
Proof.
  intros bytes ws rest max_open g0 s W HL Hf Ho.
  unfold file_input_raw_set, raw_first. rewrite Hf. cbn [bind fresh f_fp]. rewrite andb_false_r.
  unfold fopen. replace (g_open g0 <? max_open) with true by (symmetry; now apply N.ltb_lt).
  eexists _, _. exists (raw_at bytes 0 (length ws) (N.of_nat (length ws)) 0).
  split; [reflexivity|].
  split.
  - match goal with |- reads _ _ ?st ?g = _ => replace st with (raw_at bytes 0 0 0 0) end.
    + rewrite (raw_reads_plain bytes ws rest max_open W 0 Regular (length ws) 0 0 0) by (auto; lia).
      rewrite Nat.add_0_l, N.add_0_l. cbn [plus].
      replace (map (fun k => nth k ws 0) (seq 0 (length ws))) with ws; [reflexivity|].
      clear. induction ws as [|w ws IH]; [reflexivity|]. cbn [length seq map]. rewrite <- seq_shift, map_map.
      cbn [nth]. f_equal. exact IH.
    + unfold raw_at. cbn [Nat.mul skipn]. now destruct (negb (s =? 0)).
  - now apply raw_end with (rest := rest).
Qed.

(** ** C25: numbers written can be read back *)
Lemma nth_draws : forall (draw : nat -> N) m k, (k < m)%nat ->
  nth k (map (fun i => w32 (draw i)) (seq 0 m)) 0 = w32 (draw k).
Proof.
  intros draw m k H. rewrite (nth_indep _ 0 (w32 (draw 0%nat))) by (now rewrite map_length, seq_length).
  rewrite (map_nth (fun i => w32 (draw i)) (seq 0 m) 0%nat). now rewrite seq_nth.
Qed.

Lemma cyclically_once : forall (draw : nat -> N) m,
  cyclically (map (fun i => w32 (draw i)) (seq 0 m)) m = map (fun i => w32 (draw i)) (seq 0 m).
Proof.
  intros draw m. unfold cyclically. rewrite map_length, seq_length. apply map_ext_in.
  intros k Hk. apply in_seq in Hk. rewrite Nat.mod_small by lia. apply nth_draws. lia.
Qed.

(** dieharder -o -O 1: the ASCII file. *)
Theorem C25_uint : forall name seed tsamples draw text max_open scan_lg st0 g0 s,
  Forall (fun c => c <> 0 /\ c <> 10) name -> N.of_nat (length name) <= 900 -> seed < 2 ^ 64 ->
  0 < tsamples -> tsamples < 2 ^ 31 ->
  output_uint name seed tsamples draw = Ok text ->
  (st0 = fresh \/ s <> 0) -> g_open g0 < max_open -> length (g_split g0) = N.to_nat 1024 ->
  exists st g st' g',
    file_input_set (Some text) max_open st0 g0 s = Ok (st, g) /\
    reads (file_input_get (Some text) max_open scan_lg) (N.to_nat tsamples) st g =
      Ok (map (fun i => w32 (draw i)) (seq 0 (N.to_nat tsamples)), st', g').
Proof.
  intros name seed tsamples draw text max_open scan_lg st0 g0 s Hname Lname Hseed Hts Hts31 Etext Hs Ho Hb.
  unfold output_uint in Etext.
  replace (tsamples <? 2 ^ 32) with true in Etext
    by (symmetry; apply N.ltb_lt; eapply N.lt_trans; [exact Hts31|reflexivity]).
  set (body := concat (map (fun i => print_10u (w32 (draw i)) ++ [10]) (seq 0 (N.to_nat tsamples)))) in Etext.
  assert (Et : text = out_header 100 name seed tsamples ++ body) by congruence. clear Etext. subst text.
  set (vals := map (fun i => w32 (draw i)) (seq 0 (N.to_nat tsamples))).
  set (data := map (fun i => print_10u (w32 (draw i)) ++ [10]) (seq 0 (N.to_nat tsamples))).
  assert (Lv : N.of_nat (length vals) = tsamples) by (unfold vals; rewrite map_length, seq_length; lia).
  assert (HH : Header (header_lines 100 name seed tsamples) 100 (N.of_nat (length vals)) 32).
  { rewrite Lv. apply header_lines_ok; auto; [|discriminate].
    unfold separator. cbn. intuition discriminate. }
  assert (HD : Forall2 (Data_line 100 32) data vals).
  { unfold data, vals. generalize (seq 0 (N.to_nat tsamples)). induction l as [|i l IH]; constructor; [|exact IH].
    apply print_10u_line. unfold w32. apply N.mod_lt. discriminate. }
  destruct (C23_cyclic (header_lines 100 name seed tsamples) 100 32 data vals [] max_open scan_lg st0 g0 s
              (N.to_nat tsamples)) as (st & g & st' & g' & E1 & _ & E2 & _); auto.
  - unfold vals. intros E. apply map_eq_nil in E. destruct (N.to_nat tsamples) eqn:E0; [lia|discriminate].
  - lia.
  - exists st, g, st', g'. rewrite out_header_lines. rewrite app_nil_r in E1, E2.
    split; [exact E1|]. unfold vals in E2. rewrite cyclically_once in E2. exact E2.
Qed.
Example C25_uint_ex :
  match output_uint (bytes_of "mt19937") 42 3 (fun i => N.of_nat i * 2000000000) with
  | Ok text =>
    match file_input_set (Some text) 10 fresh g_init 1 with
    | Ok (st, g) => match reads (file_input_get (Some text) 10 (fun _ => ScanFail)) 3 st g with
                    | Ok (out, _, _) => out = [0; 2000000000; 4000000000]
                    | _ => False end
    | _ => False end
  | _ => False end.
Proof. vm_compute. reflexivity. Qed.

(** dieharder -o -O 0: the binary file, for at least sixteen numbers. *)
Theorem C25_binary : forall tsamples draw bytes max_open st0 g0 s,
  16 <= tsamples -> output_binary tsamples draw = Ok bytes ->
  (st0 = fresh \/ s <> 0) -> g_first g0 = true -> g_open g0 < max_open ->
  exists st g st',
    file_input_raw_set (Some bytes) max_open Regular st0 g0 s = Ok (st, g) /\
    reads (file_input_raw_get (Some bytes) max_open Regular) (N.to_nat tsamples) st g =
      Ok (map (fun i => w32 (draw i)) (seq 0 (N.to_nat tsamples)), st', g).
Proof.
  intros tsamples draw bytes max_open st0 g0 s H16 E Hs Hf Ho. unfold output_binary in E.
  destruct (N.ltb_spec tsamples (2 ^ 32)) as [H32|H32]; [|rewrite andb_false_r in E; discriminate].
  change (2 ^ 32) with 4294967296 in H32.
  destruct (N.ltb_spec 0 tsamples); [|lia]. cbn [andb] in E. injection E as <-.
  set (vals := map (fun i => w32 (draw i)) (seq 0 (N.to_nat tsamples))).
  assert (Lv : length vals = N.to_nat tsamples) by (unfold vals; now rewrite map_length, seq_length).
  assert (W : Words (concat (map (fun i => word_bytes (w32 (draw i))) (seq 0 (N.to_nat tsamples)))) vals []).
  { unfold vals. rewrite <- (map_map (fun i => w32 (draw i)) word_bytes). apply words_concat.
    apply Forall_forall. intros w Hw. apply in_map_iff in Hw as (i & <- & _). unfold w32. apply N.mod_lt. discriminate. }
  destruct (C24_cyclic _ vals [] max_open st0 g0 s (N.to_nat tsamples) W) as (st & g & st' & E1 & _ & E2 & _); auto; try lia.
  exists st, g, st'. split; [exact E1|]. rewrite E2. unfold vals. now rewrite cyclically_once.
Qed.

(** From 2^31 numbers on the count in the header overflows the reader's
    atoi. *)
Theorem C25_large_refuted : forall draw, exists name seed tsamples text,
  output_uint name seed tsamples draw = Ok text /\
  file_input_set (Some text) 10 fresh g_init 1 = UB "atoi overflow".
Proof.
  intros draw. exists (bytes_of "mt19937"), 42, (2 ^ 31). eexists. split; [reflexivity|].
  generalize (concat (map (fun i => print_10u (w32 (draw i)) ++ [10]) (seq 0 (N.to_nat (2 ^ 31))))).
  intros X. vm_compute. reflexivity.
Qed.

(** ** C76: reseeding and open files *)

Fixpoint reseed_n (set : fstate -> fglobals -> N -> outcome (fstate * fglobals)) (n : nat) (s : N)
    (st : fstate) (g : fglobals) : outcome (fstate * fglobals) :=
  match n with
  | O => Ok (st, g)
  | S m => do (st1, g1) <- set st g s ;; reseed_n set m s st1 g1
  end.

(** file_input never closes: reseeding it as often as the system allows open
    files, and once more, ends the program. *)
Theorem C76_leak_refuted : forall header t numbit data values tail max_open s,
  values <> [] -> Header header t (N.of_nat (length values)) numbit ->
  Forall2 (Data_line t numbit) data values -> s <> 0 ->
  let contents := Some (concat header ++ concat data ++ tail) in
  forall n, (n <= N.to_nat max_open)%nat ->
  (exists st g, reseed_n (file_input_set contents max_open) n s fresh g_init = Ok (st, g) /\
                g_open g = N.of_nat n) /\
  reseed_n (file_input_set contents max_open) (S (N.to_nat max_open)) s fresh g_init = Exit 0.
Proof.
  intros header t numbit data values tail max_open s Hne HH HD Hs contents n Hn.
  assert (G : forall k st0 g0, length (g_split g0) = N.to_nat 1024 ->
            (k + N.to_nat (g_open g0) <= N.to_nat max_open)%nat ->
            exists st g, reseed_n (file_input_set contents max_open) k s st0 g0 = Ok (st, g) /\
              g_open g = g_open g0 + N.of_nat k /\ length (g_split g) = N.to_nat 1024).
  { induction k as [|k IH]; intros st0 g0 Hb Hk.
    - exists st0, g0. split; [reflexivity|]. split; [lia|exact Hb].
    - destruct (set_fresh (concat header ++ concat data ++ tail) max_open (fun _ => ScanFail) header t numbit data values tail
                  HH eq_refl st0 g0 s (or_intror Hs) ltac:(lia) Hb) as (g & E & (R & _) & _ & Eo).
      cbn [reseed_n]. unfold contents at 1. rewrite E. cbn [bind].
      destruct (IH (at_position data values tail 0 0 0) g R) as (st' & g' & E' & O' & B'); [rewrite Eo; lia|].
      exists st', g'. split; [exact E'|]. split; [|exact B']. rewrite O', Eo. lia. }
  assert (Hg0 : length (g_split g_init) = N.to_nat 1024) by (vm_compute; reflexivity).
  split.
  - destruct (G n fresh g_init Hg0) as (st & g & E & O & _); [cbn [g_open g_init]; lia|].
    exists st, g. split; [exact E|]. rewrite O. cbn [g_open g_init]. lia.
  - destruct (G (N.to_nat max_open) fresh g_init Hg0) as (st & g & E & O & _); [cbn [g_open g_init]; lia|].
    assert (A : forall k st0 g0, reseed_n (file_input_set contents max_open) (S k) s st0 g0 =
              do (st1, g1) <- reseed_n (file_input_set contents max_open) k s st0 g0 ;;
              file_input_set contents max_open st1 g1 s).
    { induction k as [|k IH]; intros st0 g0.
      - cbn [reseed_n bind]. destruct (file_input_set contents max_open st0 g0 s) as [[a b]| | |]; reflexivity.
      - change (reseed_n (file_input_set contents max_open) (S (S k)) s st0 g0) with
          (do (st1, g1) <- file_input_set contents max_open st0 g0 s ;;
           reseed_n (file_input_set contents max_open) (S k) s st1 g1).
        change (reseed_n (file_input_set contents max_open) (S k) s st0 g0) with
          (do (st1, g1) <- file_input_set contents max_open st0 g0 s ;;
           reseed_n (file_input_set contents max_open) k s st1 g1).
        destruct (file_input_set contents max_open st0 g0 s) as [[a b]| | |]; cbn [bind]; auto. }
    rewrite A, E. cbn [bind]. unfold file_input_set. replace (s =? 0) with false by (symmetry; now apply N.eqb_neq).
    cbn [negb]. unfold fopen. cbn [contents].
    replace (g_open g <? max_open) with false; [reflexivity|].
    symmetry. apply N.ltb_ge. rewrite O. cbn [g_open g_init]. lia.
Qed.
Example C76_leak_ex :
  let contents := Some (concat ex_header ++ concat ex_data) in
  match reseed_n (file_input_set contents 4) 4 9 fresh g_init with Ok (_, g) => g_open g = 4 | _ => False end /\
  reseed_n (file_input_set contents 4) 5 9 fresh g_init = Exit 0.
Proof. vm_compute. split; reflexivity. Qed.

(** file_input_raw keeps one file open, whatever is done with it. *)
Inductive op := Get | Reseed (s : N).
Fixpoint raw_run (contents : option (list N)) (max_open : N) (kind : node) (ops : list op)
    (st : fstate) (g : fglobals) : outcome (fstate * fglobals) :=
  match ops with
  | [] => Ok (st, g)
  | Get :: r => do (_, st1, g1) <- file_input_raw_get contents max_open kind st g ;;
                raw_run contents max_open kind r st1 g1
  | Reseed s :: r => do (st1, g1) <- file_input_raw_set contents max_open kind st g s ;;
                     raw_run contents max_open kind r st1 g1
  end.

Definition raw_inv (st : fstate) (g : fglobals) : Prop :=
  g_open g = match f_fp st with Some _ => 1 | None => 0 end /\ (g_first g = true -> f_fp st = None).

Lemma raw_set_inv : forall bytes max_open kind st g s st' g',
  raw_inv st g -> file_input_raw_set (Some bytes) max_open kind st g s = Ok (st', g') -> raw_inv st' g'.
Proof.
  intros bytes max_open kind st g s st' g' [I1 I2] E. unfold file_input_raw_set in E.
  destruct (raw_first (Some bytes) kind st g) as [[st1 g1]| | |] eqn:E1; try discriminate. cbn [bind] in E.
  assert (J : raw_inv st1 g1 /\ g_first g1 = false).
  { unfold raw_first in E1. destruct (g_first g) eqn:Ef.
    - specialize (I2 eq_refl). rewrite I2 in I1.
      destruct kind; try discriminate.
      + destruct (_ <? 16)%Z; [discriminate|]. injection E1 as <- <-. split; [split; [exact I1|discriminate]|reflexivity].
      + injection E1 as <- <-. split; [split; [exact I1|discriminate]|reflexivity].
    - injection E1 as <- <-. split; [split; [exact I1|intros H; congruence]|exact Ef]. }
  destruct J as [[J1 J2] J3]. unfold fopen in E.
  destruct (negb (s =? 0)) eqn:Es; destruct (f_fp st1) as [r|] eqn:Efp; cbn [andb g_open] in E.
  - destruct (_ <? max_open); [|discriminate]. injection E as <- <-. split; [cbn; lia|]. cbn. congruence.
  - destruct (_ <? max_open); [|discriminate]. injection E as <- <-. split; [cbn; lia|]. cbn. congruence.
  - destruct (negb (f_flen st1 =? 0)%Z && (f_flen st1 <=? f_rptr st1)%Z); injection E as <- <-.
    + split; [exact J1|]. cbn [g_first f_fp]. congruence.
    + split; [now rewrite Efp|congruence].
  - destruct (_ <? max_open); [|discriminate]. injection E as <- <-. split; [cbn; lia|]. cbn. congruence.
Qed.

Theorem C76_raw : forall bytes max_open kind ops st g,
  raw_run (Some bytes) max_open kind ops fresh g_init = Ok (st, g) -> g_open g <= 1.
Proof.
  intros bytes max_open kind.
  assert (G : forall ops st g st' g', raw_inv st g ->
            raw_run (Some bytes) max_open kind ops st g = Ok (st', g') -> raw_inv st' g').
  { induction ops as [|o ops IH]; intros st g st' g' I E; cbn [raw_run] in E.
    - injection E as <- <-. exact I.
    - destruct o as [|s].
      + destruct (file_input_raw_get (Some bytes) max_open kind st g) as [[[v st1] g1]| | |] eqn:E1;
          try discriminate. cbn [bind] in E. eapply IH; [|exact E].
        unfold file_input_raw_get in E1. destruct (f_fp st) as [r|] eqn:Efp; [|discriminate].
        destruct (fread_word r) as [[w r']|]; [|discriminate].
        destruct (incr_off (f_rptr st)) as [rp| | |]; try discriminate. cbn [bind] in E1.
        destruct (incr_off (f_rtot st)) as [rt| | |]; try discriminate. cbn [bind] in E1.
        assert (I' : raw_inv {| f_fp := Some r'; f_flen := f_flen st; f_rptr := rp; f_rtot := rt; f_rew := f_rew st |} g).
        { destruct I as [I1 I2]. rewrite Efp in I1, I2. split; [exact I1|]. intros H. discriminate (I2 H). }
        destruct (negb (f_flen st =? 0)%Z && (rp =? f_flen st)%Z).
        * destruct (file_input_raw_set (Some bytes) max_open kind _ g 0) as [[st2 g2]| | |] eqn:E2;
            try discriminate. cbn [bind] in E1. injection E1 as <- <- <-.
          eapply raw_set_inv; eassumption.
        * injection E1 as <- <- <-. exact I'.
      + destruct (file_input_raw_set (Some bytes) max_open kind st g s) as [[st1 g1]| | |] eqn:E1;
          try discriminate. cbn [bind] in E. eapply IH; [|exact E]. eapply raw_set_inv; eassumption. }
  intros ops st g E. apply G in E; [|split; [reflexivity|reflexivity]].
  destruct E as [E _]. destruct (f_fp st); lia.
Qed.
Example C76_raw_ex :
  let bytes := map N.of_nat (seq 1 64) in
  match raw_run (Some bytes) 2 Regular (Reseed 3 :: repeat Get 20 ++ [Reseed 4; Reseed 5; Get; Reseed 0]) fresh g_init with
  | Ok (st, g) => g_open g = 1 /\ f_rtot st = 1%Z | _ => False end.
Proof. vm_compute. split; reflexivity. Qed.

(** ** C77: files of uniform deviates *)

Lemma trunc_unit : forall d, dle dzero d = true -> dlt d DoubleModel.done = true -> dtrunc d = Some 0%Z.
Proof.
  intros d H0 H1. destruct (dle_nan _ _ H0) as [_ Nd]. destruct (dlt_nan _ _ H1) as [_ N1].
  pose proof (proj1 (dle_val dzero d eq_refl Nd) H0) as V0.
  pose proof (proj1 (dlt_val d DoubleModel.done Nd N1) H1) as V1.
  rewrite val_zero in V0. rewrite val_one in V1.
  assert (F : is_finite d = true).
  { destruct (finite_or d Nd) as [F|F]; [exact F|]. exfalso.
    destruct F as [-> | ->]; cbn in H0, H1; discriminate. }
  rewrite (dtrunc_val d F). f_equal. rewrite (val_finite d F) in V0, V1.
  rewrite Ztrunc_floor by exact V0. apply Zfloor_imp. cbn. lra.
Qed.

(** Whatever deviates between 0 and 1 such a file holds, every number read
    from it is 0. *)
Theorem C77_float_refuted : forall header t numbit data ds tail max_open scan_lg s n,
  In t [101; 69; 102; 70; 103] -> ds <> [] ->
  Header header t (N.of_nat (length ds)) numbit ->
  Forall2 (fun l d => text_line l /\ scan_lg l = ScanOk d /\
                      dle dzero d = true /\ dlt d DoubleModel.done = true) data ds ->
  0 < max_open -> (Z.of_nat n < 2 ^ 63)%Z ->
  let contents := Some (concat header ++ concat data ++ tail) in
  exists st g st' g',
    file_input_set contents max_open fresh g_init s = Ok (st, g) /\
    reads (file_input_get contents max_open scan_lg) n st g = Ok (repeat 0 n, st', g').
Proof.
  intros header t numbit data ds tail max_open scan_lg s n Ht Hne HH HD Ho Hn contents.
  assert (Lv : length (repeat 0 (length ds)) = length ds) by apply repeat_length.
  rewrite <- Lv in HH.
  assert (HR : Forall2 (readable scan_lg t numbit) data (repeat 0 (length ds))).
  { clear - HD Ht. induction HD as [|l d ls ds (T & E & D0 & D1) H IH]; [constructor|]. cbn [length repeat].
    constructor; [|exact IH]. split; [exact T|]. unfold convert.
    rewrite cstr_id by (now apply text_line_nonul).
    assert (A : (t =? 100) || (t =? 105) || (t =? 117) = false)
      by (cbn in Ht; destruct Ht as [<-|[<-|[<-|[<-|[<-|[]]]]]]; reflexivity).
    assert (B : (t =? 101) || (t =? 69) || (t =? 102) || (t =? 70) || (t =? 103) = true)
      by (cbn in Ht; destruct Ht as [<-|[<-|[<-|[<-|[<-|[]]]]]]; reflexivity).
    rewrite A, B, E. cbn [use bind]. unfold float_conv. now rewrite trunc_unit. }
  assert (Hg0 : length (g_split g_init) = N.to_nat 1024) by (vm_compute; reflexivity).
  destruct (set_fresh (concat header ++ concat data ++ tail) max_open scan_lg header t numbit data
              (repeat 0 (length ds)) tail HH eq_refl fresh g_init s (or_introl eq_refl) Ho Hg0)
    as (g & E & R & _ & _).
  destruct (reads_from (concat header ++ concat data ++ tail) max_open scan_lg header t numbit data
              (repeat 0 (length ds)) tail HH HR eq_refl n 0 0 0 g) as (g' & rew & E' & _).
  - rewrite Lv. destruct ds; [easy|cbn; lia].
  - lia.
  - exact R.
  - eexists _, g, _, g'. split; [exact E|]. refine (eq_trans E' _). rewrite Lv.
    replace (map (fun k => nth (Nat.modulo (0 + k) (length ds)) (repeat 0 (length ds)) 0) (seq 0 n))
      with (repeat 0 n); [reflexivity|].
    rewrite (map_ext _ (fun _ => 0)).
    + clear. generalize 0%nat. induction n as [|n IH]; intros a; [reflexivity|]. cbn [seq map repeat]. now rewrite <- IH.
    + intros k. apply nth_repeat.
Qed.
(** 0.5 read from a file of floats. *)
Example C77_float_ex :
  match convert (fun _ => ScanOk dhalf) 102 32 (bytes_of "0.5000000000" ++ [10]) with Ok v => v = 0 | _ => False end.
Proof. vm_compute. reflexivity. Qed.

(** ** C78: malformed data lines *)

(** A line of white space is not rejected: sscanf reports the end of the
    input, which the test for 0 lets pass, and the number returned is the
    uninitialised variable. *)
Theorem C78_blank_refuted : forall contents max_open scan_lg st g line rest,
  In (g_type g) [100; 105; 117; 111; 120; 88] ->
  f_fp st = Some (line ++ rest) -> text_line line -> Forall blank line ->
  file_input_get contents max_open scan_lg st g = UB "iret is uninitialised".
Proof.
  intros contents max_open scan_lg st g line rest Ht Hfp T B. unfold file_input_get. rewrite Hfp.
  rewrite (fgets_line line rest T). unfold convert. rewrite cstr_id by (now apply text_line_nonul).
  assert (Sk : forall base, scan_uint base line = ScanEof).
  { intros base. unfold scan_uint. rewrite <- (app_nil_r line), skip_blank by exact B. reflexivity. }
  destruct Ht as [<-|[<-|[<-|[<-|[<-|[<-|[]]]]]]]; cbn [N.eqb Pos.eqb orb]; rewrite Sk; reflexivity.
Qed.
Example C78_blank_ex :
  let contents := Some (concat ex_header ++ [10; 49; 10; 50; 10]) in
  match file_input_set contents 10 fresh g_init 5 with
  | Ok (st, g) => file_input_get contents 10 (fun _ => ScanFail) st g = UB "iret is uninitialised"
  | _ => False end.
Proof. vm_compute. reflexivity. Qed.

(** A line that starts with something that is no number ends the program. *)
Theorem C78_text : forall contents max_open scan_lg st g line rest c r,
  In (g_type g) [100; 105; 117] -> f_fp st = Some (line ++ rest) -> text_line line ->
  line = c :: r -> ~ blank c -> c <> 43 -> c <> 45 -> (forall d, ~ Digit 10 c d) ->
  file_input_get contents max_open scan_lg st g = Exit 0.
Proof.
  intros contents max_open scan_lg st g line rest c r Ht Hfp T El Hb H43 H45 Hd.
  unfold file_input_get. rewrite Hfp, (fgets_line line rest T). unfold convert.
  rewrite cstr_id by (now apply text_line_nonul).
  assert (Sk : scan_uint 10 line = ScanFail).
  { subst line. unfold scan_uint. cbn [skip_space].
    replace (isspace c) with false by (symmetry; apply not_true_is_false; rewrite <- blank_space; exact Hb).
    replace (c =? 43) with false by (symmetry; now apply N.eqb_neq).
    replace (c =? 45) with false by (symmetry; now apply N.eqb_neq).
    assert (Dn : digit_in 10 c = None).
    { unfold digit_in, digit_value. destruct ((48 <=? c) && (c <=? 57)) eqn:E.
      - exfalso. apply andb_true_iff in E as [A B]. apply N.leb_le in A, B. apply (Hd (c - 48)).
        replace c with (48 + (c - 48)) at 1 by lia. constructor; lia.
      - destruct ((97 <=? c) && (c <=? 102)) eqn:E2.
        + apply andb_true_iff in E2 as [A B]. apply N.leb_le in A, B.
          now replace (c - 87 <? 10) with false by (symmetry; apply N.ltb_ge; lia).
        + destruct ((65 <=? c) && (c <=? 70)) eqn:E3; [|reflexivity].
          apply andb_true_iff in E3 as [A B]. apply N.leb_le in A, B.
          now replace (c - 55 <? 10) with false by (symmetry; apply N.ltb_ge; lia). }
    assert (G : scan_digits 10 false (c :: r) = ScanFail) by (unfold scan_digits; cbn [digits]; now rewrite Dn).
    unfold scan_body. destruct r as [|x r]; [exact G|]. cbn [N.eqb Pos.eqb andb]. exact G. }
  destruct Ht as [<-|[<-|[<-|[]]]]; cbn [N.eqb Pos.eqb orb]; rewrite Sk; reflexivity.
Qed.

Print Assumptions C26_fields.
Print Assumptions C26_split.
Print Assumptions C26_strings.
Print Assumptions C26_long_refuted.
Print Assumptions C23_cyclic.
Print Assumptions C23_rewinds.
Print Assumptions C24_cyclic.
Print Assumptions C24_small_refuted.
Print Assumptions C24_second_refuted.
Print Assumptions C25_uint.
Print Assumptions C25_binary.
Print Assumptions C25_large_refuted.
Print Assumptions C76_leak_refuted.
Print Assumptions C76_raw.
Print Assumptions C77_float_refuted.
Print Assumptions C78_blank_refuted.
Print Assumptions C78_text.
