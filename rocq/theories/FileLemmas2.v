(** Header parsing and the reading loop of file_input. *)
From Verif Require Import Base BaseLemmas DoubleModel FileModel FileSpec FileLemmas.
From Coq Require Import Permutation.
Local Open Scope N_scope.

(** ** Header lines *)

(** What a list of header items leaves in the three variables. *)
Definition upd_type (t : N) (i : item) : N := match i with Type_is x => x | _ => t end.
Definition upd_count (c : Z) (i : item) : Z := match i with Count_is x => Z.of_N x | _ => c end.
Definition upd_bits (b : Z) (i : item) : Z := match i with Numbit_is x => Z.of_N x | _ => b end.

Lemma keyword_starts : forall k f, keyword k f -> starts_with k f = true.
Proof.
  intros k f (r & ->). induction k as [|a k IH]; [reflexivity|]. cbn. now rewrite N.eqb_refl.
Qed.

Lemma removelast_snoc : forall (s : list N) c, removelast (s ++ [c]) = s.
Proof. intros. rewrite removelast_app by discriminate. cbn. apply app_nil_r. Qed.

Lemma chop_line : forall s c, chop (s ++ [c]) = Ok s.
Proof.
  intros s c. unfold chop. destruct (s ++ [c]) eqn:E; [now apply app_eq_nil in E as [_ E]|].
  rewrite <- E. now rewrite removelast_snoc.
Qed.

Lemma Fields_first : forall s f0 fs c t, Fields separator s (f0 :: fs) -> s = c :: t ->
  separator c \/ exists r, f0 = c :: r.
Proof.
  intros s f0 fs c t H E. inversion H as [|b f r fs' Hb Hf Hn Hr HF E1 E2]; subst.
  destruct b as [|x b].
  - destruct f0 as [|y f0]; [easy|]. cbn in E1. injection E1 as Ey _. subst y. right. now exists f0.
  - cbn in E1. injection E1 as Ex _. subst x. inversion Hb; subst. now left.
Qed.

Lemma not_hash : forall s f0 f1 k a, Fields separator s [f0; f1] -> keyword (a :: k) f0 -> a <> 35 ->
  match s ++ [10] with c :: _ => c =? 35 | [] => false end = false.
Proof.
  intros s f0 f1 k a H (r & ->) Ha. destruct s as [|c s]; [reflexivity|]. cbn [app].
  destruct (Fields_first _ _ _ _ _ H eq_refl) as [Hs|(r' & E)].
  - apply N.eqb_neq. intros ->. unfold separator in Hs. cbn in Hs. intuition discriminate.
  - injection E as -> _. now apply N.eqb_neq.
Qed.

(** The two fields after split. *)
Lemma split_two : forall s f0 f1 buf,
  Fields separator s [f0; f1] -> Forall (fun c => c <> 0) s ->
  N.of_nat (length f0) <= 127 -> N.of_nat (length f1) <= 127 -> length buf = N.to_nat PK ->
  exists buf', split s buf = Ok (2, buf') /\ length buf' = N.to_nat PK /\
    field_at buf' 0 = Ok f0 /\ field_at buf' 1 = Ok f1 /\
    nth_error buf' 1 = Some (strncpy_row PBUF f1).
Proof.
  intros s f0 f1 buf F Hz L0 L1 Lb.
  destruct (split_ok s _ buf F Lb) as (buf' & E & L' & Hrow & _ & _).
  pose proof (Fields_nonul _ _ F Hz) as Hn. inversion Hn as [|? ? N0 N1]; subst. inversion N1 as [|? ? N2 _]; subst.
  change (N.min (N.of_nat (length [f0; f1])) 1023) with 2 in *.
  exists buf'. split; [exact E|]. split; [exact L'|].
  pose proof (Hrow 0%nat ltac:(cbn; lia)) as R0. pose proof (Hrow 1%nat ltac:(cbn; lia)) as R1.
  cbn [nth] in R0, R1. unfold PK, PBUF in *.
  split; [|split].
  - apply field_short; [rewrite L'; lia|exact R0|unfold PBUF; lia|exact N0].
  - apply field_short; [rewrite L'; lia|exact R1|unfold PBUF; lia|exact N2].
  - rewrite <- R1. apply nth_error_nth'. rewrite L'. lia.
Qed.

Section Reading.
  Variable bytes : list N.
  Variable max_open : N.
  Variable scan_lg : list N -> scanned double.

  Lemma keyword_no : forall k f a b r, keyword k f -> k = a :: r -> a <> b ->
    forall p, starts_with (b :: p) f = false.
  Proof.
    intros k f a b r (x & ->) -> Hab p. cbn. replace (b =? a) with false; [reflexivity|].
    symmetry. apply N.eqb_neq. congruence.
  Qed.

  Definition seen (st : fstate) (rest : list N) (flen : Z) : fstate :=
    {| f_fp := Some rest; f_flen := flen; f_rptr := f_rptr st; f_rtot := f_rtot st; f_rew := f_rew st |}.

  (** One header line that is not a comment. *)
  Lemma header_line_ok : forall l it st g cnt, Header_line l it -> it <> Comment ->
    length (g_split g) = N.to_nat PK ->
    exists s buf g', chop (cstr l) = Ok s /\ split s (g_split g) = Ok (2, buf) /\
      (match cstr l with c :: _ => c =? 35 | [] => false end) = false /\
      (let g1 := {| g_type := g_type g; g_count := g_count g; g_numbits := g_numbits g;
                    g_split := buf; g_first := g_first g; g_open := g_open g |} in
       header_fields st g1 cnt =
         Ok ({| f_fp := f_fp st; f_flen := upd_count (f_flen st) it; f_rptr := f_rptr st;
                f_rtot := f_rtot st; f_rew := f_rew st |}, g', cnt + 1)) /\
      length (g_split g') = N.to_nat PK /\ g_first g' = g_first g /\ g_open g' = g_open g /\
      g_type g' = upd_type (g_type g) it /\ g_numbits g' = upd_bits (g_numbits g) it /\
      g_count g' = upd_count (g_count g) it.
  Proof.
    intros l it st g cnt H Hc Lb.
    destruct H as [t Ht|s f0 t r T F K L0 L1|s f0 f1 n T F K Hn Hlt L0 L1|s f0 f1 n T F K Hn Hlt L0 L1];
      [easy| | |].
    - pose proof (text_line_nonul _ T) as Hz. rewrite cstr_id by exact Hz.
      assert (Hzs : Forall (fun c => c <> 0) s) by (apply Forall_app in Hz; tauto).
      destruct (split_two s f0 (t :: r) (g_split g) F Hzs L0 L1 Lb) as (buf & E & L' & F0 & F1 & R1).
      exists s, buf. eexists. split; [apply chop_line|]. split; [exact E|].
      split; [eapply not_hash; [exact F|exact K|discriminate]|].
      split.
      + unfold header_fields. cbn [g_split]. rewrite F0. cbn [bind].
        rewrite (keyword_starts _ _ K).
        assert (A1 : aget buf 1 = Ok (strncpy_row PBUF (t :: r)))
          by (unfold aget; change (1 <? 0)%Z with false; change (Z.to_nat 1) with 1%nat; now rewrite R1).
        rewrite A1. cbn [bind]. replace (aget (strncpy_row PBUF (t :: r)) 0) with (Ok t) by reflexivity.
        cbn [bind]. rewrite (keyword_no _ _ _ 99 _ K eq_refl ltac:(discriminate)).
        cbn [bind]. rewrite (keyword_no _ _ _ 110 _ K eq_refl ltac:(discriminate)).
        destruct st; reflexivity.
      + cbn [g_split g_first g_open g_type g_numbits g_count]. repeat split; auto.
    - pose proof (text_line_nonul _ T) as Hz. rewrite cstr_id by exact Hz.
      assert (Hzs : Forall (fun c => c <> 0) s) by (apply Forall_app in Hz; tauto).
      destruct (split_two s f0 f1 (g_split g) F Hzs L0 L1 Lb) as (buf & E & L' & F0 & F1 & R1).
      exists s, buf. eexists. split; [apply chop_line|]. split; [exact E|].
      split; [eapply not_hash; [exact F|exact K|discriminate]|].
      split.
      + unfold header_fields. cbn [g_split]. rewrite F0. cbn [bind].
        rewrite (keyword_no _ _ _ 116 _ K eq_refl ltac:(discriminate)). cbn [bind].
        rewrite (keyword_starts _ _ K). cbn [g_split]. rewrite F1. cbn [bind].
        rewrite (atoi_numeral _ _ Hn Hlt). cbn [bind].
        rewrite (keyword_no _ _ _ 110 _ K eq_refl ltac:(discriminate)). reflexivity.
      + cbn [g_split g_first g_open g_type g_numbits g_count]. repeat split; auto.
    - pose proof (text_line_nonul _ T) as Hz. rewrite cstr_id by exact Hz.
      assert (Hzs : Forall (fun c => c <> 0) s) by (apply Forall_app in Hz; tauto).
      destruct (split_two s f0 f1 (g_split g) F Hzs L0 L1 Lb) as (buf & E & L' & F0 & F1 & R1).
      exists s, buf. eexists. split; [apply chop_line|]. split; [exact E|].
      split; [eapply not_hash; [exact F|exact K|discriminate]|].
      split.
      + unfold header_fields. cbn [g_split]. rewrite F0. cbn [bind].
        rewrite (keyword_no _ _ _ 116 _ K eq_refl ltac:(discriminate)). cbn [bind].
        rewrite (keyword_no _ _ _ 99 _ K eq_refl ltac:(discriminate)). cbn [bind].
        rewrite (keyword_starts _ _ K). cbn [g_split]. rewrite F1. cbn [bind].
        rewrite (atoi_numeral _ _ Hn Hlt). cbn [bind]. destruct st; reflexivity.
      + cbn [g_split g_first g_open g_type g_numbits g_count]. repeat split; auto.
  Qed.

  Lemma Header_line_text : forall l it, Header_line l it -> text_line l.
  Proof. intros l it H. destruct H; assumption. Qed.

  Lemma Header_comment_head : forall l, Header_line l Comment ->
    (match cstr l with c :: _ => c =? 35 | [] => false end) = true.
  Proof. intros l H. inversion H; subst. reflexivity. Qed.

  Definition nitems (items : list item) : N := N.of_nat (length (filter not_comment items)).

  Lemma header_loop_ok : forall items ls fuel st g cnt tail,
    Forall2 Header_line ls items -> f_fp st = Some (concat ls ++ tail) ->
    length (g_split g) = N.to_nat PK -> cnt + nitems items = 3 ->
    (items = [] \/ exists front l, items = front ++ [l] /\ l <> Comment) ->
    (length (concat ls) < fuel)%nat ->
    exists g', header_loop fuel st g cnt = Ok (seen st tail (fold_left upd_count items (f_flen st)), g') /\
      length (g_split g') = N.to_nat PK /\ g_first g' = g_first g /\ g_open g' = g_open g /\
      g_type g' = fold_left upd_type items (g_type g) /\
      g_numbits g' = fold_left upd_bits items (g_numbits g) /\
      g_count g' = fold_left upd_count items (g_count g).
  Proof.
    induction items as [|it items IH]; intros ls fuel st g cnt tail HF Hfp Lb Hcnt Hlast Hfuel.
    - inversion HF; subst. exists g. cbn in Hcnt. replace cnt with 3 by (unfold nitems in Hcnt; cbn in Hcnt; lia).
      cbn [concat app] in Hfp. split; [|repeat split; auto].
      destruct fuel; cbn [header_loop]; unfold seen; destruct st; cbn in *; now subst.
    - inversion HF as [|l it' ls' items' Hl HF']; subst.
      assert (Hlast' : items = [] \/ exists front l, items = front ++ [l] /\ l <> Comment).
      { destruct items; [now left|right]. destruct Hlast as [Hx|(front & x & E & Hx)]; [easy|].
        destruct front as [|y front]; [discriminate|]. cbn in E. injection E as _ E. now exists front, x. }
      assert (Hpos : cnt < 3).
      { destruct Hlast as [Hx|(front & x & E & Hx)]; [easy|]. rewrite E in Hcnt. unfold nitems in Hcnt.
        rewrite filter_app, app_length in Hcnt. cbn [filter] in Hcnt.
        destruct x; cbn [not_comment] in Hcnt; [easy| | |]; cbn [length] in Hcnt; lia. }
      destruct fuel as [|fuel]; [lia|]. cbn [header_loop].
      replace (cnt <? 3) with true by (symmetry; now apply N.ltb_lt).
      rewrite Hfp. cbn [concat]. rewrite <- app_assoc.
      rewrite (fgets_line l (concat ls' ++ tail)) by (eapply Header_line_text; exact Hl).
      cbn [concat] in Hfuel. rewrite app_length in Hfuel.
      pose proof (text_line_len _ (Header_line_text _ _ Hl)) as Hlen.
      destruct (not_comment it) eqn:Enc.
      + assert (Hne : it <> Comment) by (intros ->; discriminate).
        set (st1 := {| f_fp := Some (concat ls' ++ tail); f_flen := f_flen st; f_rptr := f_rptr st;
                       f_rtot := f_rtot st; f_rew := f_rew st |}).
        destruct (header_line_ok l it st1 g cnt Hl Hne Lb)
          as (s & buf & g' & Ec & Es & Eh & Ef & Lb' & Efi & Eo & Et & Eb & Ect).
        rewrite Eh, Ec. cbn [bind]. rewrite Es. cbn [bind]. change (negb (2 =? 2)) with false.
        cbn beta iota zeta in Ef. cbn beta iota. rewrite Ef. cbn [bind].
        destruct (IH ls' fuel {| f_fp := f_fp st1; f_flen := upd_count (f_flen st1) it;
                                 f_rptr := f_rptr st1; f_rtot := f_rtot st1; f_rew := f_rew st1 |}
                    g' (cnt + 1) tail HF') as (g'' & E & L'' & A1 & A2 & A3 & A4 & A5).
        * reflexivity.
        * exact Lb'.
        * unfold nitems in *. cbn [filter] in Hcnt. rewrite Enc in Hcnt. cbn [length] in Hcnt. lia.
        * exact Hlast'.
        * lia.
        * exists g''. rewrite E. cbn [fold_left]. repeat split; try congruence.
      + assert (it = Comment) by (destruct it; easy). subst it.
        rewrite (Header_comment_head _ Hl).
        destruct (IH ls' fuel {| f_fp := Some (concat ls' ++ tail); f_flen := f_flen st;
                                 f_rptr := f_rptr st; f_rtot := f_rtot st; f_rew := f_rew st |}
                    g cnt tail HF') as (g'' & E & L'' & A1 & A2 & A3 & A4 & A5).
        * reflexivity.
        * exact Lb.
        * exact Hcnt.
        * exact Hlast'.
        * lia.
        * exists g''. rewrite E. cbn [fold_left]. repeat split; assumption.
  Qed.

  (** The folds pick the one line of each kind. *)
  Lemma fold_pick : forall A (upd : A -> item -> A) (v : A) (sel : item -> Prop),
    (forall i a, sel i -> upd a i = v) -> (forall i a, ~ sel i -> upd a i = a) ->
    (forall i, {sel i} + {~ sel i}) ->
    forall items a, (exists i, In i items /\ sel i) \/ a = v -> fold_left upd items a = v.
  Proof.
    intros A upd v sel H1 H2 Hd. induction items as [|i items IH]; intros a H.
    - destruct H as [(i & [] & _)|E]; exact E.
    - cbn [fold_left]. apply IH. destruct (Hd i) as [Hs|Hs].
      + right. now apply H1.
      + rewrite H2 by exact Hs. destruct H as [(j & [<-|Hj] & Hsj)|E]; [easy| |now right].
        left. now exists j.
  Qed.

  Lemma picked : forall items t c b a0 a1 a2,
    Permutation (filter not_comment items) [Type_is t; Count_is c; Numbit_is b] ->
    fold_left upd_type items a0 = t /\ fold_left upd_count items a1 = Z.of_N c /\
    fold_left upd_bits items a2 = Z.of_N b.
  Proof.
    intros items t c b a0 a1 a2 P.
    assert (Hin : forall i, In i items -> not_comment i = true ->
                  In i [Type_is t; Count_is c; Numbit_is b]).
    { intros i Hi Hn. eapply Permutation_in; [exact P|]. now apply filter_In. }
    assert (Hex : forall i, In i [Type_is t; Count_is c; Numbit_is b] -> In i items).
    { intros i Hi. apply Permutation_sym in P. eapply Permutation_in in Hi; [|exact P].
      now apply filter_In in Hi as [Hi _]. }
    clear P.
    assert (Gt : forall l, (forall i, In i l -> In i items) -> forall a,
              a = t \/ In (Type_is t) l -> fold_left upd_type l a = t).
    { induction l as [|i l IH]; intros Hl a Ha; [destruct Ha as [E|[]]; exact E|].
      cbn [fold_left]. apply IH; [intros; apply Hl; now right|].
      destruct Ha as [->|[->|Ha]].
      - left. destruct i; try reflexivity. cbn.
        destruct (Hin _ (Hl _ (or_introl eq_refl)) eq_refl) as [E|[E|[E|[]]]]; congruence.
      - now left.
      - now right. }
    assert (Gc : forall l, (forall i, In i l -> In i items) -> forall a,
              a = Z.of_N c \/ In (Count_is c) l -> fold_left upd_count l a = Z.of_N c).
    { induction l as [|i l IH]; intros Hl a Ha; [destruct Ha as [E|[]]; exact E|].
      cbn [fold_left]. apply IH; [intros; apply Hl; now right|].
      destruct Ha as [->|[->|Ha]].
      - left. destruct i; try reflexivity. cbn.
        destruct (Hin _ (Hl _ (or_introl eq_refl)) eq_refl) as [E|[E|[E|[]]]]; congruence.
      - now left.
      - now right. }
    assert (Gb : forall l, (forall i, In i l -> In i items) -> forall a,
              a = Z.of_N b \/ In (Numbit_is b) l -> fold_left upd_bits l a = Z.of_N b).
    { induction l as [|i l IH]; intros Hl a Ha; [destruct Ha as [E|[]]; exact E|].
      cbn [fold_left]. apply IH; [intros; apply Hl; now right|].
      destruct Ha as [->|[->|Ha]].
      - left. destruct i; try reflexivity. cbn.
        destruct (Hin _ (Hl _ (or_introl eq_refl)) eq_refl) as [E|[E|[E|[]]]]; congruence.
      - now left.
      - now right. }
    repeat split; [apply Gt|apply Gc|apply Gb]; auto; right; apply Hex; cbn; auto.
  Qed.

  (** The state of the globals after a header has been read. *)
  Definition ready (g : fglobals) (t c b : N) : Prop :=
    length (g_split g) = N.to_nat PK /\ g_type g = t /\ g_numbits g = Z.of_N b /\
    g_count g = Z.of_N c.

  Lemma run_header_ok : forall ls t c b st g tail,
    Header ls t c b -> f_fp st = Some (concat ls ++ tail) -> length (g_split g) = N.to_nat PK ->
    exists g', run_header st g = Ok (seen st tail (Z.of_N c), g') /\ ready g' t c b /\
      g_first g' = g_first g /\ g_open g' = g_open g.
  Proof.
    intros ls t c b st g tail (items & HF & Hlast & P) Hfp Lb.
    destruct (picked items t c b (g_type g) (f_flen st) (g_numbits g) P) as (P1 & P2 & P3).
    destruct (picked items t c b (g_type g) (g_count g) (g_numbits g) P) as (_ & P4 & _).
    unfold run_header. rewrite Hfp.
    destruct (header_loop_ok items ls (Datatypes.S (length (concat ls ++ tail))) st g 0 tail HF Hfp Lb)
      as (g' & E & L' & A1 & A2 & A3 & A4 & A5).
    - unfold nitems. rewrite (Permutation_length P). reflexivity.
    - now right.
    - rewrite app_length. lia.
    - exists g'. rewrite P2 in E. split; [exact E|]. split; [|now split].
      unfold ready. repeat split; congruence.
  Qed.

  (** ** Data lines *)
  Lemma Data_line_text : forall t b l n, Data_line t b l n -> text_line l.
  Proof. intros t b l n H. destruct H; assumption. Qed.

  Lemma convert_ok : forall t b l n, Data_line t b l n ->
    convert scan_lg t (Z.of_N b) l = Ok n.
  Proof.
    intros t b l n H.
    pose proof (text_line_nonul _ (Data_line_text _ _ _ _ H)) as Hz.
    destruct H as [base before prefix ds c after n l R Hb Hp Hn Hlt Hc E T|ds after n l Et Hn Hlen Hle E T];
      unfold convert; rewrite cstr_id by exact Hz.
    - assert (Hbase : base <= 16) by (destruct R as [[_ ->]|[[_ ->]|[_ ->]]]; lia).
      assert (S0 : scan_uint base l = ScanOk n) by (subst l; now apply scan_uint_ok).
      destruct R as [[Ht ->]|[[-> ->]|[Ht ->]]].
      + replace ((t =? 100) || (t =? 105) || (t =? 117)) with true.
        * now rewrite S0.
        * cbn in Ht. destruct Ht as [<-|[<-|[<-|[]]]]; reflexivity.
      + cbn [N.eqb Pos.eqb orb]. now rewrite S0.
      + destruct Ht as [<-|[<-|[]]]; cbn [N.eqb Pos.eqb orb]; now rewrite S0.
    - subst t. cbn [N.eqb Pos.eqb orb].
      assert (L32 : (length ds <= 32)%nat) by lia.
      destruct (binary_value ds n Hn L32) as [V _].
      replace (N.to_nat (u32_of_Z (Z.of_N b))) with (length ds + 0)%nat.
      + subst l. rewrite <- app_assoc, (bit2uint_ok ds n _ 0 0 Hn). cbn [bit2uint]. now rewrite V.
      + unfold u32_of_Z. rewrite Z.mod_small by lia. lia.
  Qed.

  Lemma Data_readable : forall t b data values, Forall2 (Data_line t b) data values ->
    Forall2 (fun l v => text_line l /\ convert scan_lg t (Z.of_N b) l = Ok v) data values.
  Proof.
    intros t b data values H. induction H as [|l v ls vs Hl H IH]; constructor; [|exact IH].
    split; [eapply Data_line_text; exact Hl|now apply convert_ok].
  Qed.

  (** ** The cycle *)
  Variables (header : list (list N)) (t numbit : N).
  Variables (data : list (list N)) (values : list N) (tail : list N).
  Let c := N.of_nat (length values).
  Hypothesis Hhead : Header header t c numbit.
  Definition readable (l : list N) (v : N) : Prop :=
    text_line l /\ convert scan_lg t (Z.of_N numbit) l = Ok v.
  Hypothesis Hdata : Forall2 readable data values.
  Hypothesis Hne : values <> [].
  Hypothesis Hbytes : bytes = concat header ++ concat data ++ tail.

  Definition at_position (p : nat) (total rew : N) : fstate :=
    {| f_fp := Some (concat (skipn p data) ++ tail); f_flen := Z.of_N c; f_rptr := Z.of_nat p;
       f_rtot := Z.of_N total; f_rew := rew |}.

  Lemma set_fresh : forall st0 g0 s, (st0 = fresh \/ s <> 0) -> g_open g0 < max_open ->
    length (g_split g0) = N.to_nat PK ->
    exists g, file_input_set (Some bytes) max_open st0 g0 s = Ok (at_position 0 0 0, g) /\
      ready g t c numbit /\ g_first g = g_first g0 /\ g_open g = g_open g0 + 1.
  Proof.
    intros st0 g0 s Hs Ho Lb. unfold file_input_set.
    set (fp := if negb (s =? 0) then None else f_fp st0).
    assert (Efp : fp = None).
    { unfold fp. destruct Hs as [->|Hs]; [now destruct (negb (s =? 0))|].
      replace (s =? 0) with false by (symmetry; now apply N.eqb_neq). reflexivity. }
    rewrite Efp. unfold fopen. replace (g_open g0 <? max_open) with true by (symmetry; now apply N.ltb_lt).
    match goal with |- exists g, run_header ?s0 ?g1 = _ /\ _ =>
      destruct (run_header_ok header t c numbit s0 g1 (concat data ++ tail) Hhead)
        as (g & E & R & A1 & A2) end.
    - cbn [f_fp]. now rewrite Hbytes.
    - exact Lb.
    - exists g. rewrite E. split; [|split; [exact R|split; [exact A1|exact A2]]].
      unfold seen, at_position. cbn [f_rptr f_rtot f_rew skipn].
      destruct Hs as [->|Hs].
      + destruct (s =? 0); reflexivity.
      + replace (s =? 0) with false by (symmetry; now apply N.eqb_neq). reflexivity.
  Qed.

  Lemma data_length : length data = length values.
  Proof.
    clear - Hdata. revert values Hdata.
    induction data as [|x d IH]; intros vs H; inversion H; subst; [reflexivity|].
    cbn [length]. f_equal. now apply IH.
  Qed.

  Lemma nth_data : forall p, (p < length values)%nat ->
    exists l, skipn p data = l :: skipn (Datatypes.S p) data /\ readable l (nth p values 0).
  Proof.
    clear Hhead Hne Hbytes c. revert values Hdata. 
    induction data as [|l d IH]; intros vs H p Hp.
    - inversion H; subst. cbn in Hp. lia.
    - inversion H as [|? v ? vs' Hl H']; subst. destruct p as [|p].
      + exists l. split; [reflexivity|exact Hl].
      + cbn [length] in Hp. destruct (IH vs' H' p ltac:(lia)) as (l' & E & Hd).
        exists l'. split; [exact E|exact Hd].
  Qed.

  Definition wrap (p : nat) : nat := if (Datatypes.S p =? length values)%nat then 0%nat else Datatypes.S p.
  Definition wrap_rew (p : nat) (r : N) : N :=
    if (Datatypes.S p =? length values)%nat then add32 r 1 else r.

  Lemma get_step : forall p total rew g, (p < length values)%nat -> (Z.of_N total < 2 ^ 63 - 1)%Z ->
    ready g t c numbit ->
    exists g', file_input_get (Some bytes) max_open scan_lg (at_position p total rew) g =
      Ok (nth p values 0, at_position (wrap p) (total + 1) (wrap_rew p rew), g') /\
      ready g' t c numbit /\ g_first g' = g_first g /\ g_open g' = g_open g.
  Proof.
    intros p total rew g Hp Htot R. unfold file_input_get. cbn [f_fp at_position].
    destruct (nth_data p Hp) as (l & El & Hl & Hcv).
    rewrite El. cbn [concat]. rewrite <- app_assoc.
    rewrite (fgets_line l _) by exact Hl.
    destruct R as (Rb & Rt & Rn & Rc). rewrite Rt, Rn, Hcv. cbn [bind].
    cbn [f_rptr f_rtot at_position f_flen f_rew].
    assert (Hc31 : (length values < 2 ^ 31)%nat \/ (Z.of_nat p < 2 ^ 63 - 1)%Z).
    { right. destruct Hhead as (items & HF & _ & P).
      assert (Hin : In (Count_is c) items).
      { assert (In (Count_is c) (filter not_comment items)).
        { eapply Permutation_in; [apply Permutation_sym; exact P|]. cbn. auto. }
        now apply filter_In in H as [H _]. }
      clear - Hin HF Hp.
      assert (G : forall ls items, Forall2 Header_line ls items -> In (Count_is c) items -> c < 2 ^ 31).
      { intros ls its F. induction F as [|x y ls' its' Hxy F' IH]; intros Hi; [destruct Hi|].
        destruct Hi as [->|Hi]; [|now apply IH]. inversion Hxy; subst. assumption. }
      specialize (G _ _ HF Hin). unfold c in G. lia. }
    assert (Hpz : (Z.of_nat p < 2 ^ 63 - 1)%Z).
    { destruct Hc31 as [H|H]; [|exact H]. lia. }
    clear Hc31. unfold incr_off at 1. replace (Z.of_nat p <? 2 ^ 63 - 1)%Z with true by (symmetry; now apply Z.ltb_lt).
    cbn [bind]. unfold incr_off. replace (Z.of_N total <? 2 ^ 63 - 1)%Z with true by (symmetry; now apply Z.ltb_lt).
    cbn [bind]. unfold wrap, wrap_rew.
    destruct (Nat.eqb_spec (Datatypes.S p) (length values)) as [Ew|Ew].
    - replace (Z.of_nat p + 1 =? Z.of_N c)%Z with true by (symmetry; apply Z.eqb_eq; unfold c; lia).
      unfold file_input_set. change (negb (0 =? 0)) with false. cbn iota. cbn [f_fp f_flen f_rptr f_rtot f_rew].
      replace (Z.of_N c <=? Z.of_nat p + 1)%Z with true by (symmetry; apply Z.leb_le; unfold c; lia).
      match goal with |- context [run_header ?s0 ?g1] =>
        destruct (run_header_ok header t c numbit s0 g1 (concat data ++ tail) Hhead)
          as (g' & E & R' & A1 & A2) end.
      + cbn [f_fp]. now rewrite Hbytes.
      + exact Rb.
      + rewrite E. cbn [bind]. exists g'. split; [|split; [exact R'|split; [exact A1|exact A2]]].
        unfold seen, at_position. cbn [f_rptr f_rtot f_rew skipn]. repeat f_equal. lia.
    - replace (Z.of_nat p + 1 =? Z.of_N c)%Z with false by (symmetry; apply Z.eqb_neq; unfold c; lia).
      exists g. split; [|split; [repeat split; assumption|split; reflexivity]].
      unfold at_position. repeat f_equal; lia.
  Qed.

  Lemma reads_from : forall n p total rew g, (p < length values)%nat ->
    (Z.of_N total + Z.of_nat n < 2 ^ 63)%Z -> ready g t c numbit ->
    exists g' rew', reads (file_input_get (Some bytes) max_open scan_lg) n (at_position p total rew) g =
      Ok (map (fun k => nth (Nat.modulo (p + k) (length values)) values 0) (seq 0 n),
          at_position (Nat.modulo (p + n) (length values)) (total + N.of_nat n) rew', g') /\
      (rew < 2 ^ 32 -> rew' = (rew + N.of_nat (Nat.div (p + n) (length values))) mod 2 ^ 32) /\
      ready g' t c numbit /\ g_first g' = g_first g /\ g_open g' = g_open g.
  Proof.
    induction n as [|n IH]; intros p total rew g Hp Htot R.
    - exists g, rew. cbn [reads seq map]. rewrite Nat.add_0_r, Nat.mod_small, Nat.div_small by exact Hp.
      rewrite N.add_0_r. split; [reflexivity|]. split; [|now auto].
      intros Hr. rewrite N.add_0_r. now rewrite N.mod_small.
    - cbn [reads]. destruct (get_step p total rew g Hp ltac:(lia) R) as (g1 & E1 & R1 & A1 & B1).
      rewrite E1. cbn [bind].
      assert (Hwp : (wrap p < length values)%nat).
      { unfold wrap. destruct (Nat.eqb_spec (Datatypes.S p) (length values)); lia. }
      destruct (IH (wrap p) (total + 1) (wrap_rew p rew) g1 Hwp ltac:(lia) R1)
        as (g2 & rew2 & E2 & V2 & R2 & A2 & B2).
      rewrite E2. cbn [bind]. exists g2, rew2.
      assert (Hmod : forall k, ((wrap p + k) mod length values = (p + Datatypes.S k) mod length values)%nat).
      { intros k. unfold wrap. destruct (Nat.eqb_spec (Datatypes.S p) (length values)) as [Ew|Ew].
        - replace (p + Datatypes.S k)%nat with (k + 1 * length values)%nat by lia.
          rewrite Nat.mod_add by lia. reflexivity.
        - f_equal. lia. }
      split; [|split; [|split; [exact R2|split; congruence]]].
      + cbn [seq map]. rewrite <- seq_shift, map_map. rewrite Nat.add_0_r, (Nat.mod_small p) by exact Hp.
        rewrite Hmod. replace (total + N.of_nat (Datatypes.S n)) with (total + 1 + N.of_nat n) by lia.
        rewrite (map_ext _ _ (fun k => f_equal (fun m => nth m values 0) (Hmod k))). reflexivity.
      + intros Hr. rewrite V2.
        * unfold wrap_rew, wrap. destruct (Nat.eqb_spec (Datatypes.S p) (length values)) as [Ew|Ew].
          -- replace (p + Datatypes.S n)%nat with (n + 1 * length values)%nat by lia.
             rewrite Nat.div_add by lia. unfold add32, w32. rewrite Nat.add_0_l.
             rewrite N.add_mod_idemp_l by discriminate. f_equal. lia.
          -- replace (Datatypes.S p + n)%nat with (p + Datatypes.S n)%nat by lia. reflexivity.
        * unfold wrap_rew. destruct (Datatypes.S p =? length values)%nat; [|exact Hr].
          unfold add32, w32. apply N.mod_lt. discriminate.
  Qed.
End Reading.
