(** Model of the cellular automaton generator (rng_ca.c). *)
From Verif Require Export Base.
Open Scope N_scope.

(** rng_ca.c:57-75 [rule]. *)
Definition ca_rule : list N :=
  [100; 75; 16; 3; 229; 51; 197; 118; 24; 62; 198; 11; 141; 152; 241; 188; 2; 17; 71; 47; 179; 177; 126; 231;
   202; 243; 59; 25; 77; 196; 30; 134; 199; 163; 34; 216; 21; 84; 37; 182; 224; 186; 64; 79; 225; 45; 143; 20;
   48; 147; 209; 221; 125; 29; 99; 12; 46; 190; 102; 220; 80; 215; 242; 105; 15; 53; 0; 67; 68; 69; 70; 89;
   109; 195; 170; 78; 210; 131; 42; 110; 181; 145; 40; 114; 254; 85; 107; 87; 72; 192; 90; 201; 162; 122; 86; 252;
   94; 129; 98; 132; 193; 249; 156; 172; 219; 230; 153; 54; 180; 151; 83; 214; 123; 88; 164; 167; 116; 117; 7; 27;
   23; 213; 235; 5; 65; 124; 60; 127; 236; 149; 44; 28; 58; 121; 191; 13; 250; 10; 232; 112; 101; 217; 183; 239;
   8; 32; 228; 174; 49; 113; 247; 158; 106; 218; 154; 66; 226; 157; 50; 26; 253; 93; 205; 41; 133; 165; 61; 161;
   187; 169; 6; 171; 81; 248; 56; 175; 246; 36; 178; 52; 57; 212; 39; 176; 184; 185; 245; 63; 35; 189; 206; 76;
   104; 233; 194; 19; 43; 159; 108; 55; 200; 155; 14; 74; 244; 255; 222; 207; 208; 137; 128; 135; 96; 144; 18; 95;
   234; 139; 173; 92; 1; 203; 115; 223; 130; 97; 91; 227; 146; 4; 31; 120; 211; 38; 22; 138; 140; 237; 238; 251;
   240; 160; 142; 119; 73; 103; 166; 33; 148; 9; 111; 136; 168; 150; 82; 204; 100; 75; 16; 3; 229; 51; 197; 118;
   24; 62; 198; 11; 141; 152; 241; 188; 2; 17; 71; 47; 179; 177; 126; 231; 202; 243; 59; 25; 77; 196; 30; 134;
   199; 163; 34; 216; 21; 84; 37; 182; 224; 186; 64; 79; 225; 45; 143; 20; 48; 147; 209; 221; 125; 29; 99; 12;
   46; 190; 102; 220; 80; 215; 242; 105; 15; 53; 0; 67; 68; 69; 70; 89; 109; 195; 170; 78; 210; 131; 42; 110;
   181; 145; 40; 114; 254; 85; 107; 87; 72; 192; 90; 201; 162; 122; 86; 252; 94; 129; 98; 132; 193; 249; 156; 172;
   219; 230; 153; 54; 180; 151; 83; 214; 123; 88; 164; 167; 116; 117; 7; 27; 23; 213; 235; 5; 65; 124; 60; 127;
   236; 149; 44; 28; 58; 121; 191; 13; 250; 10; 232; 112; 101; 217; 183; 239; 8; 32; 228; 174; 49; 113; 247; 158;
   106; 218; 154; 66; 226; 157; 50; 26; 253; 93; 205; 41; 133; 165; 61; 161; 187; 169; 6; 171; 81; 248; 56; 175;
   246; 36; 178; 52; 57; 212; 39; 176; 184; 185; 245; 63; 35; 189; 206; 76; 104; 233; 194; 19; 43; 159; 108; 55;
   200; 155; 14; 74; 244; 255; 222; 207; 208; 137; 128; 135; 96; 144; 18; 95; 234; 139; 173; 92; 1; 203; 115; 223;
   130; 97; 91; 227; 146; 4; 31; 120; 211; 38; 22; 138; 140; 237; 238; 251; 240; 160; 142; 119; 73; 103; 166; 33;
   148; 9; 111; 136; 168; 150; 82].

(** rng_ca.c:48. *)
Definition CA_WIDTH : N := 2056.

(** The static variables of rng_ca.c:51-55: the cells, and the index of
    [cell_d] in them ([first_cell] and [last_cell] always are the indices 0 and
    CA_WIDTH - 1), together with the global unsigned long [seed] of the library
    (libdieharder.h:297). *)
Record castate := mkCA { cells : list N; cur : Z; gseed : N }.

(** One cell: [*p = rule[*q + *p]], stored in an unsigned char. *)
Definition ca_cell (l : list N) (p q : Z) : outcome (list N) :=
  do x <- aget l p ;;
  do y <- aget l q ;;
  do v <- aget ca_rule (Z.of_N (y + x)) ;;
  aset l p (v mod 256).

(** rng_ca.c:86-112 [ca_get].  The four bytes are read as an unsigned int of a
    little-endian machine. *)
Definition ca_get (s : castate) : outcome (N * castate) :=
  let d := cur s in
  let c := (d - 1)%Z in
  let b := (c - 1)%Z in
  let a := (b - 1)%Z in
  do l <- ca_cell (cells s) d c ;;
  do l <- ca_cell l c b ;;
  do l <- ca_cell l b a ;;
  do (l, d) <- (if (a =? 0)%Z then
      do x <- aget l a ;;
      do v <- aget ca_rule (Z.of_N x) ;;
      do l <- aset l a (v mod 256) ;;
      Ok (l, Z.of_N CA_WIDTH - 1)%Z
    else
      do l <- ca_cell l a (a - 1)%Z ;;
      Ok (l, (d - 4)%Z)) ;;
  do v0 <- aget l a ;;
  do v1 <- aget l (a + 1)%Z ;;
  do v2 <- aget l (a + 2)%Z ;;
  do v3 <- aget l (a + 3)%Z ;;
  Ok (v0 + 2 ^ 8 * v1 + 2 ^ 16 * v2 + 2 ^ 24 * v3, mkCA l d (gseed s)).

(** rng_ca.c:133-141: the cells before the automaton is run. *)
Definition ca_init (seed seed' : N) : list N :=
  map (fun i => N.shiftr seed' (N.of_nat i mod 32) mod 256) (seq 0 (N.to_nat (CA_WIDTH - 4))) ++
  [N.shiftl seed 24 mod 256; N.shiftl seed 16 mod 256; N.shiftl seed 8 mod 256; seed mod 256].

(** rng_ca.c:154-155: running it, ignoring the numbers. *)
Definition ca_evolve (n : N) (s : castate) : outcome castate :=
  N.iter n (fun o => do s <- o ;; do (v, s) <- ca_get s ;; Ok s) (Ok s).

(** rng_ca.c:122-156 [ca_set].  The seed [s] given by the caller is not used.
    The loop bound (CA_WIDTH * CA_WIDTH) / 4.0 is 1056784. *)
Definition ca_set (old : castate) (s : N) : outcome castate :=
  let seed := gseed old in
  let seed' := if seed =? 4294967295 then seed else w64 (seed + 1) in
  ca_evolve 1056784 (mkCA (ca_init seed seed') (Z.of_N CA_WIDTH - 1) seed').
