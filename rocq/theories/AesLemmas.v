From Verif Require Import BaseLemmas PopcountLemmas AesModel AesSpec.
Open Scope N_scope.

(** ** Bytes and words *)
Definition bcol (x : col) : Prop := let '(a, b, c, d) := x in byte a /\ byte b /\ byte c /\ byte d.
Definition bstate (x : state) : Prop := let '(a, b, c, d) := x in bcol a /\ bcol b /\ bcol c /\ bcol d.
Definition pack (x : col) : N :=
  let '(a, b, c, d) := x in N.lxor (N.lxor (N.lxor (N.shiftl a 24) (N.shiftl b 16)) (N.shiftl c 8)) d.
Definition packs (s : state) : words := let '(a, b, c, d) := s in (pack a, pack b, pack c, pack d).

Lemma lxor_swap4 : forall a b c d, N.lxor (N.lxor a b) (N.lxor c d) = N.lxor (N.lxor a c) (N.lxor b d).
Proof. intros. apply N.bits_inj. intro n. rewrite !N.lxor_spec. destruct (N.testbit a n), (N.testbit b n), (N.testbit c n), (N.testbit d n); reflexivity. Qed.
Lemma pack_xor : forall x y, pack (col_xor x y) = N.lxor (pack x) (pack y).
Proof.
  intros [[[a b] c] d] [[[a' b'] c'] d']. cbn [pack col_xor]. rewrite !N.shiftl_lxor.
  rewrite (lxor_swap4 (N.lxor (N.lxor (N.shiftl a 24) (N.shiftl b 16)) (N.shiftl c 8)) d). f_equal.
  rewrite (lxor_swap4 (N.lxor (N.shiftl a 24) (N.shiftl b 16)) (N.shiftl c 8)). f_equal. apply lxor_swap4.
Qed.
Lemma land_lxor : forall a b m, N.land (N.lxor a b) m = N.lxor (N.land a m) (N.land b m).
Proof. intros. apply N.bits_inj. intro n. rewrite !N.land_spec, !N.lxor_spec, !N.land_spec. destruct (N.testbit a n), (N.testbit b n), (N.testbit m n); reflexivity. Qed.
Lemma lxor_lt : forall n a b, a < 2 ^ n -> b < 2 ^ n -> N.lxor a b < 2 ^ n.
Proof.
  intros n a b A B. assert (E : N.lxor a b = N.lxor a b mod 2 ^ n).
  { rewrite <- N.land_ones, land_lxor, !N.land_ones, !N.mod_small by assumption. reflexivity. }
  rewrite E. apply N.mod_lt, N.pow_nonzero. discriminate.
Qed.
Lemma byte_xor : forall a b, byte a -> byte b -> byte (N.lxor a b).
Proof. unfold byte. intros. apply lxor_lt; assumption. Qed.
Lemma bcol_xor : forall x y, bcol x -> bcol y -> bcol (col_xor x y).
Proof. intros [[[a b] c] d] [[[a' b'] c'] d'] (A & B & C & D) (A' & B' & C' & D'). cbn. auto using byte_xor. Qed.
Lemma bstate_xor : forall x y, bstate x -> bstate y -> bstate (st_xor x y).
Proof. intros [[[a b] c] d] [[[a' b'] c'] d'] (A & B & C & D) (A' & B' & C' & D'). cbn. auto using bcol_xor. Qed.

Lemma byte_shr : forall x k, byte x -> 8 <= k -> N.shiftr x k = 0.
Proof. intros x k X K. rewrite N.shiftr_div_pow2. apply N.div_small. unfold byte in X. eapply N.lt_le_trans; [exact X|]. change 256 with (2 ^ 8). apply N.pow_le_mono_r; [discriminate|exact K]. Qed.
Lemma byte_low : forall x, byte x -> N.land x 255 = x.
Proof. intros x X. change 255 with (N.ones 8). rewrite N.land_ones. apply N.mod_small. exact X. Qed.
Lemma shl_low : forall x k, 8 <= k -> N.land (N.shiftl x k) 255 = 0.
Proof.
  intros x k K. change 255 with (N.ones 8). rewrite N.land_ones, N.shiftl_mul_pow2. replace k with (k - 8 + 8) by lia.
  rewrite N.pow_add_r, N.mul_assoc. apply N.mod_mul. discriminate.
Qed.
Lemma pack_b0 : forall x, bcol x -> b0 (pack x) = fst (fst (fst x)).
Proof.
  intros [[[a b] c] d] (A & B & C & D). unfold b0, pack. cbn [fst]. rewrite !N.shiftr_lxor.
  rewrite (N.shiftr_shiftl_l a 24 24), N.shiftl_0_r by lia. rewrite (N.shiftr_shiftl_r b 16 24), (N.shiftr_shiftl_r c 8 24) by lia.
  rewrite (byte_shr b), (byte_shr c), (byte_shr d) by (assumption || lia). rewrite !N.lxor_0_r. reflexivity.
Qed.
Lemma pack_b1 : forall x, bcol x -> b1 (pack x) = snd (fst (fst x)).
Proof.
  intros [[[a b] c] d] (A & B & C & D). unfold b1, pack. cbn [fst snd]. rewrite !N.shiftr_lxor.
  rewrite (N.shiftr_shiftl_l a 24 16), (N.shiftr_shiftl_l b 16 16), N.shiftl_0_r by lia. rewrite (N.shiftr_shiftl_r c 8 16) by lia.
  rewrite (byte_shr c), (byte_shr d) by (assumption || lia). rewrite !N.lxor_0_r, land_lxor, shl_low, byte_low, N.lxor_0_l by (assumption || lia). reflexivity.
Qed.
Lemma pack_b2 : forall x, bcol x -> b2 (pack x) = snd (fst x).
Proof.
  intros [[[a b] c] d] (A & B & C & D). unfold b2, pack. cbn [fst snd]. rewrite !N.shiftr_lxor.
  rewrite (N.shiftr_shiftl_l a 24 8), (N.shiftr_shiftl_l b 16 8), (N.shiftr_shiftl_l c 8 8), N.shiftl_0_r by lia.
  rewrite (byte_shr d) by (assumption || lia). rewrite !N.lxor_0_r, !land_lxor, !shl_low, byte_low, !N.lxor_0_l by (assumption || lia). reflexivity.
Qed.
Lemma pack_b3 : forall x, bcol x -> b3 (pack x) = snd x.
Proof.
  intros [[[a b] c] d] (A & B & C & D). unfold b3, pack. cbn [fst snd]. rewrite !land_lxor, !shl_low, byte_low, !N.lxor_0_l by (assumption || lia). reflexivity.
Qed.

(** ** Tables *)
Definition SB : list N := [99; 124; 119; 123; 242; 107; 111; 197; 48; 1; 103; 43; 254; 215; 171;
  118; 202; 130; 201; 125; 250; 89; 71; 240; 173; 212; 162; 175; 156; 164; 114; 192; 183; 253; 147;
  38; 54; 63; 247; 204; 52; 165; 229; 241; 113; 216; 49; 21; 4; 199; 35; 195; 24; 150; 5; 154; 7;
  18; 128; 226; 235; 39; 178; 117; 9; 131; 44; 26; 27; 110; 90; 160; 82; 59; 214; 179; 41; 227; 47;
  132; 83; 209; 0; 237; 32; 252; 177; 91; 106; 203; 190; 57; 74; 76; 88; 207; 208; 239; 170; 251;
  67; 77; 51; 133; 69; 249; 2; 127; 80; 60; 159; 168; 81; 163; 64; 143; 146; 157; 56; 245; 188; 182;
  218; 33; 16; 255; 243; 210; 205; 12; 19; 236; 95; 151; 68; 23; 196; 167; 126; 61; 100; 93; 25;
  115; 96; 129; 79; 220; 34; 42; 144; 136; 70; 238; 184; 20; 222; 94; 11; 219; 224; 50; 58; 10; 73;
  6; 36; 92; 194; 211; 172; 98; 145; 149; 228; 121; 231; 200; 55; 109; 141; 213; 78; 169; 108; 86;
  244; 234; 101; 122; 174; 8; 186; 120; 37; 46; 28; 166; 180; 198; 232; 221; 116; 31; 75; 189; 139;
  138; 112; 62; 181; 102; 72; 3; 246; 14; 97; 53; 87; 185; 134; 193; 29; 158; 225; 248; 152; 17;
  105; 217; 142; 148; 155; 30; 135; 233; 206; 85; 40; 223; 140; 161; 137; 13; 191; 230; 66; 104; 65;
  153; 45; 15; 176; 84; 187; 22].
Definition SI : list N := [82; 9; 106; 213; 48; 54; 165; 56; 191; 64; 163; 158; 129; 243; 215; 251;
  124; 227; 57; 130; 155; 47; 255; 135; 52; 142; 67; 68; 196; 222; 233; 203; 84; 123; 148; 50; 166;
  194; 35; 61; 238; 76; 149; 11; 66; 250; 195; 78; 8; 46; 161; 102; 40; 217; 36; 178; 118; 91; 162;
  73; 109; 139; 209; 37; 114; 248; 246; 100; 134; 104; 152; 22; 212; 164; 92; 204; 93; 101; 182;
  146; 108; 112; 72; 80; 253; 237; 185; 218; 94; 21; 70; 87; 167; 141; 157; 132; 144; 216; 171; 0;
  140; 188; 211; 10; 247; 228; 88; 5; 184; 179; 69; 6; 208; 44; 30; 143; 202; 63; 15; 2; 193; 175;
  189; 3; 1; 19; 138; 107; 58; 145; 17; 65; 79; 103; 220; 234; 151; 242; 207; 206; 240; 180; 230;
  115; 150; 172; 116; 34; 231; 173; 53; 133; 226; 249; 55; 232; 28; 117; 223; 110; 71; 241; 26; 113;
  29; 41; 197; 137; 111; 183; 98; 14; 170; 24; 190; 27; 252; 86; 62; 75; 198; 210; 121; 32; 154;
  219; 192; 254; 120; 205; 90; 244; 31; 221; 168; 51; 136; 7; 199; 49; 177; 18; 16; 89; 39; 128;
  236; 95; 96; 81; 127; 169; 25; 181; 74; 13; 45; 229; 122; 159; 147; 201; 156; 239; 160; 224; 59;
  77; 174; 42; 245; 176; 200; 235; 187; 60; 131; 83; 153; 97; 23; 43; 4; 126; 186; 119; 214; 38;
  225; 105; 20; 99; 85; 33; 12; 125].

Definition agree8 (f g : N -> N) : bool := forallb (fun k => f (N.of_nat k) =? g (N.of_nat k)) (seq 0 256).
Lemma agree8_ok : forall f g, agree8 f g = true -> forall x, byte x -> f x = g x.
Proof. intros f g H x X. apply N.eqb_eq. apply (all_bytes (fun x => f x =? g x) H x X). Qed.
Definition at_ (t : list N) (x : N) : N := nth (N.to_nat x) t 0.
Lemma sbox_SB : forall x, byte x -> sbox x = at_ SB x.
Proof. apply agree8_ok. vm_compute. reflexivity. Qed.
Lemma inv_sbox_SI : forall x, byte x -> inv_sbox x = at_ SI x.
Proof. apply agree8_ok. vm_compute. reflexivity. Qed.
Lemma SB_byte : forall x, byte x -> byte (at_ SB x).
Proof. intros x X. apply N.ltb_lt. apply (all_bytes (fun x => at_ SB x <? 256)); [vm_compute; reflexivity|exact X]. Qed.
Lemma SI_byte : forall x, byte x -> byte (at_ SI x).
Proof. intros x X. apply N.ltb_lt. apply (all_bytes (fun x => at_ SI x <? 256)); [vm_compute; reflexivity|exact X]. Qed.
Lemma SI_SB : forall x, byte x -> at_ SI (at_ SB x) = x.
Proof. apply (agree8_ok (fun x => at_ SI (at_ SB x)) (fun x => x)). vm_compute. reflexivity. Qed.
Lemma sbox_byte : forall x, byte x -> byte (sbox x).
Proof. intros. rewrite sbox_SB by assumption. apply SB_byte. assumption. Qed.
Lemma inv_sbox_byte : forall x, byte x -> byte (inv_sbox x).
Proof. intros. rewrite inv_sbox_SI by assumption. apply SI_byte. assumption. Qed.
Lemma inv_sbox_sbox : forall x, byte x -> inv_sbox (sbox x) = x.
Proof. intros x X. rewrite (sbox_SB x X), inv_sbox_SI by (apply SB_byte; exact X). apply SI_SB. exact X. Qed.
(** The inverse is the inverse. *)
Lemma ginv_ok : forall x, byte x -> x <> 0 -> gmul x (ginv x) = 1.
Proof.
  intros x X NZ. assert (G : (if x =? 0 then 1 else gmul x (ginv x)) = 1).
  { apply (agree8_ok (fun x => if x =? 0 then 1 else gmul x (ginv x)) (fun _ => 1)); [vm_compute; reflexivity|exact X]. }
  rewrite (proj2 (N.eqb_neq x 0)) in G by exact NZ. exact G.
Qed.

Lemma look_ok : forall t x, length t = 256%nat -> byte x -> look t x = Ok (at_ t x).
Proof. intros t x L X. unfold look, at_. unfold byte in X. rewrite (aget_ok t _ 0) by lia. do 2 f_equal. lia. Qed.

Definition te (p q r s : N) (x : N) : N := pack (gmul p (at_ SB x), gmul q (at_ SB x), gmul r (at_ SB x), gmul s (at_ SB x)).
Definition td (p q r s : N) (x : N) : N := pack (gmul p (at_ SI x), gmul q (at_ SI x), gmul r (at_ SI x), gmul s (at_ SI x)).
Lemma Te0_ok : forall x, byte x -> at_ Te0 x = te 2 1 1 3 x. Proof. apply agree8_ok. vm_compute. reflexivity. Qed.
Lemma Te1_ok : forall x, byte x -> at_ Te1 x = te 3 2 1 1 x. Proof. apply agree8_ok. vm_compute. reflexivity. Qed.
Lemma Te2_ok : forall x, byte x -> at_ Te2 x = te 1 3 2 1 x. Proof. apply agree8_ok. vm_compute. reflexivity. Qed.
Lemma Te3_ok : forall x, byte x -> at_ Te3 x = te 1 1 3 2 x. Proof. apply agree8_ok. vm_compute. reflexivity. Qed.
Lemma Te4_ok : forall x, byte x -> at_ Te4 x = pack (at_ SB x, at_ SB x, at_ SB x, at_ SB x).
Proof. apply (agree8_ok (at_ Te4) (fun x => pack (at_ SB x, at_ SB x, at_ SB x, at_ SB x))). vm_compute. reflexivity. Qed.
Lemma Td0_ok : forall x, byte x -> at_ Td0 x = td 0x0e 0x09 0x0d 0x0b x. Proof. apply agree8_ok. vm_compute. reflexivity. Qed.
Lemma Td1_ok : forall x, byte x -> at_ Td1 x = td 0x0b 0x0e 0x09 0x0d x. Proof. apply agree8_ok. vm_compute. reflexivity. Qed.
Lemma Td2_ok : forall x, byte x -> at_ Td2 x = td 0x0d 0x0b 0x0e 0x09 x. Proof. apply agree8_ok. vm_compute. reflexivity. Qed.
Lemma Td3_ok : forall x, byte x -> at_ Td3 x = td 0x09 0x0d 0x0b 0x0e x. Proof. apply agree8_ok. vm_compute. reflexivity. Qed.
Lemma Td4_ok : forall x, byte x -> at_ Td4 x = pack (at_ SI x, at_ SI x, at_ SI x, at_ SI x).
Proof. apply (agree8_ok (at_ Td4) (fun x => pack (at_ SI x, at_ SI x, at_ SI x, at_ SI x))). vm_compute. reflexivity. Qed.

Lemma mask0 : forall x, byte x -> N.land (pack (x, x, x, x)) 0xff000000 = pack (x, 0, 0, 0).
Proof. apply (agree8_ok (fun x => N.land (pack (x, x, x, x)) 0xff000000) (fun x => pack (x, 0, 0, 0))). vm_compute. reflexivity. Qed.
Lemma mask1 : forall x, byte x -> N.land (pack (x, x, x, x)) 0x00ff0000 = pack (0, x, 0, 0).
Proof. apply (agree8_ok (fun x => N.land (pack (x, x, x, x)) 0x00ff0000) (fun x => pack (0, x, 0, 0))). vm_compute. reflexivity. Qed.
Lemma mask2 : forall x, byte x -> N.land (pack (x, x, x, x)) 0x0000ff00 = pack (0, 0, x, 0).
Proof. apply (agree8_ok (fun x => N.land (pack (x, x, x, x)) 0x0000ff00) (fun x => pack (0, 0, x, 0))). vm_compute. reflexivity. Qed.
Lemma mask3 : forall x, byte x -> N.land (pack (x, x, x, x)) 0x000000ff = pack (0, 0, 0, x).
Proof. apply (agree8_ok (fun x => N.land (pack (x, x, x, x)) 0x000000ff) (fun x => pack (0, 0, 0, x))). vm_compute. reflexivity. Qed.

(** ** Field arithmetic *)
Lemma xtime_bits : forall a, byte a -> xtime a = N.lxor (N.land (N.shiftl a 1) 255) (if N.testbit a 7 then 0x1b else 0).
Proof. apply agree8_ok. vm_compute. reflexivity. Qed.
Lemma xtime_byte : forall a, byte a -> byte (xtime a).
Proof. intros a A. apply N.ltb_lt. apply (all_bytes (fun x => xtime x <? 256)); [vm_compute; reflexivity|exact A]. Qed.
Lemma xtime_xor : forall a b, byte a -> byte b -> xtime (N.lxor a b) = N.lxor (xtime a) (xtime b).
Proof.
  intros a b A B. rewrite !xtime_bits by auto using byte_xor. rewrite N.shiftl_lxor, land_lxor, lxor_swap4. f_equal.
  rewrite N.lxor_spec. destruct (N.testbit a 7), (N.testbit b 7); reflexivity.
Qed.
Lemma gmul_byte : forall n k a, byte a -> byte (gmul_n n k a).
Proof.
  induction n as [|n IH]; intros k a A; cbn [gmul_n]; [reflexivity|]. apply byte_xor; [destruct (N.odd k); [exact A|reflexivity]|]. apply IH, xtime_byte, A.
Qed.
Lemma gmul_xor : forall n k a b, byte a -> byte b -> gmul_n n k (N.lxor a b) = N.lxor (gmul_n n k a) (gmul_n n k b).
Proof.
  induction n as [|n IH]; intros k a b A B; cbn [gmul_n]; [reflexivity|]. rewrite xtime_xor, IH by auto using xtime_byte.
  rewrite lxor_swap4. f_equal. destruct (N.odd k); reflexivity.
Qed.
Lemma mix_byte : forall p q r s x, bcol x -> bcol (mix_col p q r s x).
Proof. intros p q r s [[[a b] c] d] (A & B & C & D). unfold mix_col, bcol.
  split; [|split; [|split]]; repeat match goal with |- byte (N.lxor _ _) => apply byte_xor end; apply gmul_byte; assumption.
Qed.
Lemma xor4 : forall a b c d a' b' c' d', N.lxor (N.lxor a a') (N.lxor (N.lxor b b') (N.lxor (N.lxor c c') (N.lxor d d'))) =
  N.lxor (N.lxor a (N.lxor b (N.lxor c d))) (N.lxor a' (N.lxor b' (N.lxor c' d'))).
Proof. intros. rewrite (lxor_swap4 c c'), (lxor_swap4 b b'), (lxor_swap4 a a'). reflexivity. Qed.
Lemma mix_xor : forall p q r s x y, bcol x -> bcol y -> mix_col p q r s (col_xor x y) = col_xor (mix_col p q r s x) (mix_col p q r s y).
Proof.
  intros p q r s [[[a b] c] d] [[[a' b'] c'] d'] (A & B & C & D) (A' & B' & C' & D'). unfold mix_col, gmul. cbn [col_xor].
  rewrite !gmul_xor by assumption. rewrite !xor4. reflexivity.
Qed.

Lemma gmul_xor4 : forall k a b c d, byte a -> byte b -> byte c -> byte d -> gmul k (N.lxor a (N.lxor b (N.lxor c d))) = N.lxor (gmul k a) (N.lxor (gmul k b) (N.lxor (gmul k c) (gmul k d))).
Proof. intros. unfold gmul. rewrite !gmul_xor by auto using byte_xor. reflexivity. Qed.
(** The two circulant matrices are inverse to each other. *)
Definition lin (k0 k1 k2 k3 l0 l1 l2 l3 x : N) : N :=
  N.lxor (gmul k0 (gmul l0 x)) (N.lxor (gmul k1 (gmul l1 x)) (N.lxor (gmul k2 (gmul l2 x)) (gmul k3 (gmul l3 x)))).
Lemma lin_1 : forall x, byte x -> lin 14 11 13 9 2 1 1 3 x = x.
Proof. apply (agree8_ok (lin 14 11 13 9 2 1 1 3) (fun x => x)). vm_compute. reflexivity. Qed.
Lemma lin_2 : forall x, byte x -> lin 14 11 13 9 3 2 1 1 x = 0.
Proof. apply (agree8_ok (lin 14 11 13 9 3 2 1 1) (fun _ => 0)). vm_compute. reflexivity. Qed.
Lemma lin_3 : forall x, byte x -> lin 14 11 13 9 1 3 2 1 x = 0.
Proof. apply (agree8_ok (lin 14 11 13 9 1 3 2 1) (fun _ => 0)). vm_compute. reflexivity. Qed.
Lemma lin_4 : forall x, byte x -> lin 14 11 13 9 1 1 3 2 x = 0.
Proof. apply (agree8_ok (lin 14 11 13 9 1 1 3 2) (fun _ => 0)). vm_compute. reflexivity. Qed.
Definition X4 (a b c d : N) : N := N.lxor a (N.lxor b (N.lxor c d)).
Lemma X4_xor : forall a b c d a' b' c' d', X4 (N.lxor a a') (N.lxor b b') (N.lxor c c') (N.lxor d d') = N.lxor (X4 a b c d) (X4 a' b' c' d').
Proof. exact xor4. Qed.
Lemma X4_X4 : forall a0 b0 c0 d0 a1 b1 c1 d1 a2 b2 c2 d2 a3 b3 c3 d3,
  X4 (X4 a0 b0 c0 d0) (X4 a1 b1 c1 d1) (X4 a2 b2 c2 d2) (X4 a3 b3 c3 d3) = X4 (X4 a0 a1 a2 a3) (X4 b0 b1 b2 b3) (X4 c0 c1 c2 c3) (X4 d0 d1 d2 d3).
Proof.
  intros. unfold X4 at 2 3 4 5. rewrite X4_xor. unfold X4 at 3. f_equal. rewrite X4_xor. f_equal. rewrite X4_xor. reflexivity.
Qed.
Lemma X4_rot : forall a b c d, X4 a b c d = X4 b c d a.
Proof. intros. unfold X4. rewrite (N.lxor_comm a). rewrite !N.lxor_assoc. reflexivity. Qed.
Lemma inv_mix_mix : forall x, bcol x -> mix_col 14 11 13 9 (mix_col 2 3 1 1 x) = x.
Proof.
  intros [[[a b] c] d] (A & B & C & D).
  assert (GB : forall k x, byte x -> byte (gmul k x)) by (intros; apply gmul_byte; assumption).
  assert (G4 : forall k a b c d, byte a -> byte b -> byte c -> byte d -> gmul k (X4 a b c d) = X4 (gmul k a) (gmul k b) (gmul k c) (gmul k d)) by exact gmul_xor4.
  assert (M : forall p q r s a b c d, mix_col p q r s (a, b, c, d) =
    (X4 (gmul p a) (gmul q b) (gmul r c) (gmul s d), X4 (gmul s a) (gmul p b) (gmul q c) (gmul r d), X4 (gmul r a) (gmul s b) (gmul p c) (gmul q d), X4 (gmul q a) (gmul r b) (gmul s c) (gmul p d))) by reflexivity.
  rewrite !M. rewrite !G4 by (apply GB; assumption).
  assert (L1 : forall x, byte x -> X4 (gmul 14 (gmul 2 x)) (gmul 11 (gmul 1 x)) (gmul 13 (gmul 1 x)) (gmul 9 (gmul 3 x)) = x) by exact lin_1.
  assert (L2 : forall x, byte x -> X4 (gmul 14 (gmul 3 x)) (gmul 11 (gmul 2 x)) (gmul 13 (gmul 1 x)) (gmul 9 (gmul 1 x)) = 0) by exact lin_2.
  assert (L3 : forall x, byte x -> X4 (gmul 14 (gmul 1 x)) (gmul 11 (gmul 3 x)) (gmul 13 (gmul 2 x)) (gmul 9 (gmul 1 x)) = 0) by exact lin_3.
  assert (L4 : forall x, byte x -> X4 (gmul 14 (gmul 1 x)) (gmul 11 (gmul 1 x)) (gmul 13 (gmul 3 x)) (gmul 9 (gmul 2 x)) = 0) by exact lin_4.
  assert (F4 : forall a b c d a' b' c' d' : N, a = a' -> b = b' -> c = c' -> d = d' -> (a, b, c, d) = (a', b', c', d')) by (intros; subst; reflexivity).
  apply F4; rewrite X4_X4.
  - rewrite L1, L2, L3, L4 by assumption. unfold X4. rewrite !N.lxor_0_r. reflexivity.
  - rewrite (X4_rot (gmul 9 (gmul _ a))), (X4_rot (gmul 9 (gmul _ b))), (X4_rot (gmul 9 (gmul _ c))), (X4_rot (gmul 9 (gmul _ d))). rewrite L1, L2, L3, L4 by assumption. unfold X4. rewrite !N.lxor_0_r, N.lxor_0_l. reflexivity.
  - rewrite (X4_rot (gmul 13 (gmul _ a))), (X4_rot (gmul 13 (gmul _ b))), (X4_rot (gmul 13 (gmul _ c))), (X4_rot (gmul 13 (gmul _ d))), (X4_rot (gmul 9 (gmul _ a))), (X4_rot (gmul 9 (gmul _ b))), (X4_rot (gmul 9 (gmul _ c))), (X4_rot (gmul 9 (gmul _ d))). rewrite L1, L2, L3, L4 by assumption. unfold X4. rewrite !N.lxor_0_r, !N.lxor_0_l. reflexivity.
  - rewrite (X4_rot (gmul 11 (gmul _ a))), (X4_rot (gmul 11 (gmul _ b))), (X4_rot (gmul 11 (gmul _ c))), (X4_rot (gmul 11 (gmul _ d))), (X4_rot (gmul 13 (gmul _ a))), (X4_rot (gmul 13 (gmul _ b))), (X4_rot (gmul 13 (gmul _ c))), (X4_rot (gmul 13 (gmul _ d))), (X4_rot (gmul 9 (gmul _ a))), (X4_rot (gmul 9 (gmul _ b))), (X4_rot (gmul 9 (gmul _ c))), (X4_rot (gmul 9 (gmul _ d))). rewrite L1, L2, L3, L4 by assumption. unfold X4. rewrite !N.lxor_0_l. reflexivity.
Qed.
