(** What a number file means, independently of the code that reads it. *)
From Coq Require Import List NArith Permutation.
Import ListNotations.
Local Open Scope N_scope.

(** ** Fields of a line *)

(** [Fields sep s fs]: the fields of [s] are [fs], that is [s] is made of
    separators, the first field, more separators, the second field, …: each
    field is a nonempty run of other characters that cannot be extended. *)
Inductive Fields (sep : N -> Prop) : list N -> list (list N) -> Prop :=
| Fields_nil : forall s, Forall sep s -> Fields sep s []
| Fields_cons : forall before f rest fs,
    Forall sep before -> f <> [] -> Forall (fun c => ~ sep c) f ->
    (rest = [] \/ exists c t, rest = c :: t /\ sep c) ->
    Fields sep rest fs ->
    Fields sep (before ++ f ++ rest) (f :: fs).

(** Blank, tab, comma, line feed, carriage return and colon. *)
Definition separator (c : N) : Prop := In c [32; 9; 44; 10; 13; 58].

(** ** Lines and numbers *)

(** A line of text that fits the reader's buffer: at most 1022 characters
    other than NUL and line feed, and a line feed. *)
Definition text_line (l : list N) : Prop :=
  exists body, l = body ++ [10] /\ (N.of_nat (length body) <= 1022) /\
               Forall (fun c => c <> 0 /\ c <> 10) body.

(** White space. *)
Definition blank (c : N) : Prop := c = 32 \/ (9 <= c /\ c <= 13).

(** [Digit base c d]: the character c is the digit d. *)
Inductive Digit (base : N) : N -> N -> Prop :=
| Digit_dec : forall d, d < 10 -> d < base -> Digit base (48 + d) d
| Digit_low : forall d, 10 <= d -> d < base -> d < 16 -> Digit base (87 + d) d
| Digit_up : forall d, 10 <= d -> d < base -> d < 16 -> Digit base (55 + d) d.

(** [Numeral base ds n]: the characters ds write the number n. *)
Inductive Numeral (base : N) : list N -> N -> Prop :=
| Numeral_one : forall c d, Digit base c d -> Numeral base [c] d
| Numeral_snoc : forall ds n c d, Numeral base ds n -> Digit base c d ->
    Numeral base (ds ++ [c]) (n * base + d).

(** The number on a data line, for each type of file: decimal (d, i, u),
    octal (o), hexadecimal with or without 0x (x, X): white space, the
    numeral, white space and anything; binary (b): exactly [numbit] binary
    digits at the start of the line. *)
Definition radix_of (t base : N) : Prop :=
  (In t [100; 105; 117] /\ base = 10) \/ (t = 111 /\ base = 8) \/
  (In t [120; 88] /\ base = 16).

Inductive Data_line (t numbit : N) : list N -> N -> Prop :=
| Data_numeral : forall base before prefix ds c after n l,
    radix_of t base -> Forall blank before ->
    (prefix = [] \/ (base = 16 /\ In prefix [[48; 120]; [48; 88]])) ->
    Numeral base ds n -> n < 2 ^ 32 -> blank c ->
    l = before ++ prefix ++ ds ++ c :: after -> text_line l -> Data_line t numbit l n
| Data_binary : forall ds after n l,
    t = 98 -> Numeral 2 ds n -> N.of_nat (length ds) = numbit -> numbit <= 32 ->
    l = ds ++ after -> text_line l -> Data_line t numbit l n.

(** ** The header *)

Inductive item := Comment | Type_is (t : N) | Count_is (n : N) | Numbit_is (n : N).

(** A field that begins with the keyword; "type:", "types" and "type" all
    do. *)
Definition keyword (k f : list N) : Prop := exists r, f = k ++ r.

(** A header line is a comment or consists of two fields of at most 127
    characters. *)
Inductive Header_line : list N -> item -> Prop :=
| Header_comment : forall t, text_line (35 :: t) -> Header_line (35 :: t) Comment
| Header_type : forall s f0 t r,
    text_line (s ++ [10]) -> Fields separator s [f0; t :: r] ->
    keyword [116; 121; 112; 101] f0 ->
    N.of_nat (length f0) <= 127 -> N.of_nat (length (t :: r)) <= 127 ->
    Header_line (s ++ [10]) (Type_is t)
| Header_count : forall s f0 f1 n,
    text_line (s ++ [10]) -> Fields separator s [f0; f1] ->
    keyword [99; 111; 117; 110; 116] f0 -> Numeral 10 f1 n -> n < 2 ^ 31 ->
    N.of_nat (length f0) <= 127 -> N.of_nat (length f1) <= 127 ->
    Header_line (s ++ [10]) (Count_is n)
| Header_numbit : forall s f0 f1 n,
    text_line (s ++ [10]) -> Fields separator s [f0; f1] ->
    keyword [110; 117; 109; 98; 105; 116] f0 -> Numeral 10 f1 n -> n < 2 ^ 31 ->
    N.of_nat (length f0) <= 127 -> N.of_nat (length f1) <= 127 ->
    Header_line (s ++ [10]) (Numbit_is n).

(** A header: comments anywhere, and the three lines once each in any order,
    the last line not being a comment. *)
Definition not_comment (i : item) : bool := match i with Comment => false | _ => true end.
Definition Header (ls : list (list N)) (t count numbit : N) : Prop :=
  exists items, Forall2 Header_line ls items /\
    (exists front l, items = front ++ [l] /\ l <> Comment) /\
    Permutation (filter not_comment items)
      [Type_is t; Count_is count; Numbit_is numbit].

(** ** Raw files *)

(** [Words bytes ws rest]: the complete little-endian words of a file and the
    fewer than four bytes left over. *)
Inductive Words : list N -> list N -> list N -> Prop :=
| Words_end : forall rest, (length rest < 4)%nat -> Words rest [] rest
| Words_word : forall a b c d w t ws rest,
    w = a + 2 ^ 8 * b + 2 ^ 16 * c + 2 ^ 24 * d -> Words t ws rest ->
    Words (a :: b :: c :: d :: t) (w :: ws) rest.

(** Reading a list of values cyclically. *)
Definition cyclically (values : list N) (n : nat) : list N :=
  map (fun k => nth (Nat.modulo k (length values)) values 0) (seq 0 n).
