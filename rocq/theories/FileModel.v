(** Model of the generators that read numbers from a file
    (libdieharder/rng_file_input.c, rng_file_input_raw.c,
    rng_stdin_input_raw.c), of the field splitter they use
    (libdieharder/parse.c) and of the routine that writes such files
    (dieharder/output_rnds.c).

    Characters and bytes are numbers below 256; a file is the list of its
    bytes; an open stream is the list of the bytes not yet read.  Messages
    printed to stdout/stderr are not modelled. *)
From Verif Require Import Base DoubleModel.
Local Open Scope N_scope.

(** ** C library *)

(** isspace() in the C locale. *)
Definition isspace (c : N) : bool := (c =? 32) || ((9 <=? c) && (c <=? 13)).

(** The C string stored at the start of a buffer. *)
Fixpoint cstr (l : list N) : list N :=
  match l with
  | [] => []
  | c :: t => if c =? 0 then [] else c :: cstr t
  end.

(** fgets(buf,n+1,fp): at most [n] characters, up to and including the first
    newline; the characters stored and the rest of the stream. *)
Fixpoint take_line (n : nat) (l : list N) : list N * list N :=
  match n with
  | O => ([], l)
  | S m => match l with
           | [] => ([], [])
           | c :: t => if c =? 10 then ([c], t)
                       else let (a, r) := take_line m t in (c :: a, r)
           end
  end.
(** include/dieharder/libdieharder.h:75: #define K 1024.  [None] is the NULL
    returned at end of file. *)
Definition fgets_K (rest : list N) : option (list N * list N) :=
  match rest with
  | [] => None
  | _ => Some (take_line (N.to_nat 1023) rest)
  end.

(** Value of a digit character in bases up to 16. *)
Definition digit_value (c : N) : option N :=
  if (48 <=? c) && (c <=? 57) then Some (c - 48)
  else if (97 <=? c) && (c <=? 102) then Some (c - 87)
  else if (65 <=? c) && (c <=? 70) then Some (c - 55)
  else None.
Definition digit_in (base c : N) : option N :=
  match digit_value c with
  | Some d => if d <? base then Some d else None
  | None => None
  end.

Fixpoint skip_space (l : list N) : list N :=
  match l with
  | c :: t => if isspace c then skip_space t else l
  | [] => []
  end.

(** Longest run of digits: the number of digits and the value. *)
Fixpoint digits (base : N) (l : list N) (cnt acc : N) : N * N :=
  match l with
  | c :: t => match digit_in base c with
              | Some d => digits base t (cnt + 1) (acc * base + d)
              | None => (cnt, acc)
              end
  | [] => (cnt, acc)
  end.

(** sscanf(s,"%u"|"%o"|"%x",&iret) on a C string: its return value is -1
    ([ScanEof], nothing but white space), 0 ([ScanFail]) or 1 with the value
    stored ([ScanOk]).  A value that does not fit an unsigned int is
    undefined (C11 7.21.6.2p10): [ScanRange]. *)
Inductive scanned (A : Type) : Type :=
| ScanEof | ScanFail | ScanRange | ScanOk (a : A).
Arguments ScanEof {A}.
Arguments ScanFail {A}.
Arguments ScanRange {A}.
Arguments ScanOk {A} a.

Definition scan_digits (base : N) (neg : bool) (l : list N) : scanned N :=
  let (cnt, v) := digits base l 0 0 in
  if cnt =? 0 then ScanFail
  else if (2 ^ 32 <=? v) || (neg && negb (v =? 0)) then ScanRange
  else ScanOk v.

(** For %x an optional prefix 0x or 0X. *)
Definition scan_body (base : N) (neg : bool) (l : list N) : scanned N :=
  match l with
  | z :: x :: t => if (base =? 16) && (z =? 48) && ((x =? 120) || (x =? 88))
                   then scan_digits base neg t else scan_digits base neg l
  | _ => scan_digits base neg l
  end.

Definition scan_uint (base : N) (s : list N) : scanned N :=
  match skip_space s with
  | [] => ScanEof
  | c :: t => if c =? 43 then scan_body base false t
              else if c =? 45 then scan_body base true t
              else scan_body base false (c :: t)
  end.

(** atoi(s): undefined when the value does not fit an int (C11 7.22.1p1). *)
Definition atoi (s : list N) : outcome Z :=
  let value neg l :=
    let (_, v) := digits 10 l 0 0 in
    let z := if (neg : bool) then (- Z.of_N v)%Z else Z.of_N v in
    if ((- 2 ^ 31 <=? z) && (z <? 2 ^ 31))%Z then Ok z else UB "atoi overflow" in
  match skip_space s with
  | [] => Ok 0%Z
  | c :: t => if c =? 43 then value false t
              else if c =? 45 then value true t
              else value false (c :: t)
  end.

(** strncmp(s,p,strlen(p)) == 0. *)
Fixpoint starts_with (p s : list N) : bool :=
  match p, s with
  | [], _ => true
  | a :: p', b :: s' => (a =? b) && starts_with p' s'
  | _ :: _, [] => false
  end.

(** strtok: skip separators, then take characters up to the next separator,
    which is overwritten; [None] when only separators remain. *)
Fixpoint tok_skip (sep : N -> bool) (l : list N) : list N :=
  match l with
  | c :: t => if sep c then tok_skip sep t else l
  | [] => []
  end.
Fixpoint tok_take (sep : N -> bool) (l : list N) : list N * list N :=
  match l with
  | [] => ([], [])
  | c :: t => if sep c then ([], t)
              else let (a, r) := tok_take sep t in (c :: a, r)
  end.
Definition strtok (sep : N -> bool) (l : list N) : option (list N * list N) :=
  match tok_skip sep l with
  | [] => None
  | l' => Some (tok_take sep l')
  end.

(** strncpy(dst,src,n) into an n-character array: the first n characters,
    padded with NULs; no NUL when src has n or more characters. *)
Definition strncpy_row (n : nat) (src : list N) : list N :=
  firstn n src ++ repeat 0 (n - length src).

(** ** libdieharder/parse.c *)

(** parse.c:39-45: blank, tab, comma, LF, CR, colon. *)
Definition delim (c : N) : bool :=
  (c =? 32) || (c =? 9) || (c =? 44) || (c =? 10) || (c =? 13) || (c =? 58).

(** include/dieharder/parse.h:15-21: char splitbuf[PK][PBUF]. *)
Definition PBUF : nat := 128.
Definition PK : N := 1024.

(** parse.c:57-65: the loop over the remaining fields.  [rest] is what strtok
    still has to scan; each round consumes at least one character. *)
Fixpoint split_loop (fuel : nat) (rest : list N) (i : N) (buf : list (list N))
  : outcome (N * list (list N)) :=
  match fuel with
  | O => OutOfFuel
  | S m =>
      if i <? PK - 1 then
        match strtok delim rest with
        | None => Ok (i, buf)
        | Some (tok, rest') =>
            do buf' <- aset buf (Z.of_N i) (strncpy_row PBUF tok) ;;
            split_loop m rest' (i + 1) buf'
        end
      else Ok (i, buf)
  end.

(** parse.c:25-76 split(): number of fields and splitbuf. *)
Definition split (s : list N) (buf : list (list N)) : outcome (N * list (list N)) :=
  match strtok delim s with
  | None => Ok (0, buf)
  | Some (tok, rest) =>
      do buf1 <- aset buf 0 (strncpy_row PBUF tok) ;;
      do (i, buf2) <- split_loop (S (length rest)) rest 1 buf1 ;;
      do buf3 <- aset buf2 (Z.of_N i) (repeat 0 PBUF) ;;
      Ok (i, buf3)
  end.

(** The C string found at splitbuf[i]: it may run on into the next rows;
    running off the end of the array is undefined. *)
Fixpoint has_nul (l : list N) : bool :=
  match l with [] => false | c :: t => (c =? 0) || has_nul t end.
Definition field_at (buf : list (list N)) (i : nat) : outcome (list N) :=
  let mem := concat (skipn i buf) in
  if has_nul mem then Ok (cstr mem) else UB "unterminated string".

(** parse.c:134-142 chop(): overwrites the last character of the string with
    NUL; on the empty string it writes in front of the buffer. *)
Definition chop (s : list N) : outcome (list N) :=
  match s with
  | [] => UB "chop writes buf[-1]"
  | _ => Ok (removelast s)
  end.

(** ** libdieharder/rng_file_input.c *)

(** libdieharder.h:275-281 file_input_state_t. *)
Record fstate := { f_fp : option (list N); f_flen : Z; f_rptr : Z; f_rtot : Z; f_rew : N }.
(** The globals filetype, filecount, filenumbits and splitbuf
    (dieharder/globals.c:95-97, parse.h:21), the static [first] of
    rng_file_input_raw.c:104, and the number of streams the process has opened
    and not closed. *)
Record fglobals := { g_type : N; g_count : Z; g_numbits : Z;
                     g_split : list (list N); g_first : bool; g_open : N }.

(** Memory fresh from gsl_rng_alloc, which uses calloc. *)
Definition fresh : fstate := {| f_fp := None; f_flen := 0; f_rptr := 0; f_rtot := 0; f_rew := 0 |}.

(** Signed 64-bit increment of an off_t. *)
Definition incr_off (x : Z) : outcome Z :=
  if (x <? 2 ^ 63 - 1)%Z then Ok (x + 1)%Z else UB "off_t overflow".

Section Input.
  (** The bytes of [filename] ([None] when it cannot be opened for reading),
      and the number of streams the system lets a process hold open. *)
  Variable contents : option (list N).
  Variable max_open : N.
  (** sscanf(s,"%lg",&f). *)
  Variable scan_lg : list N -> scanned double.

  Definition fopen (g : fglobals) : option (list N * fglobals) :=
    match contents with
    | Some bytes =>
        if g_open g <? max_open then
          Some (bytes, {| g_type := g_type g; g_count := g_count g; g_numbits := g_numbits g;
                          g_split := g_split g; g_first := g_first g; g_open := g_open g + 1 |})
        else None
    | None => None
    end.

  (** rng_file_input.c:319-343: one header line that is not a comment. *)
  Definition header_fields (st : fstate) (g : fglobals) (cnt : N) : outcome (fstate * fglobals * N) :=
    do f0 <- field_at (g_split g) 0 ;;
    do (g1, c1) <-
      (if starts_with [116; 121; 112; 101] f0
       then do row <- aget (g_split g) 1 ;; do t <- aget row 0 ;;
            Ok ({| g_type := t; g_count := g_count g; g_numbits := g_numbits g;
                   g_split := g_split g; g_first := g_first g; g_open := g_open g |}, cnt + 1)
       else Ok (g, cnt)) ;;
    do (st2, g2, c2) <-
      (if starts_with [99; 111; 117; 110; 116] f0
       then do f1 <- field_at (g_split g1) 1 ;; do n <- atoi f1 ;;
            Ok ({| f_fp := f_fp st; f_flen := n; f_rptr := f_rptr st; f_rtot := f_rtot st;
                   f_rew := f_rew st |},
                {| g_type := g_type g1; g_count := n; g_numbits := g_numbits g1;
                   g_split := g_split g1; g_first := g_first g1; g_open := g_open g1 |}, c1 + 1)
       else Ok (st, g1, c1)) ;;
    (if starts_with [110; 117; 109; 98; 105; 116] f0
     then do f1 <- field_at (g_split g2) 1 ;; do n <- atoi f1 ;;
          Ok (st2, {| g_type := g_type g2; g_count := g_count g2; g_numbits := n;
                      g_split := g_split g2; g_first := g_first g2; g_open := g_open g2 |}, c2 + 1)
     else Ok (st2, g2, c2)).

  (** rng_file_input.c:292-345: the header loop.  Each round reads at least
      one character. *)
  Fixpoint header_loop (fuel : nat) (st : fstate) (g : fglobals) (cnt : N)
    : outcome (fstate * fglobals) :=
    if cnt <? 3 then
      match fuel with
      | O => OutOfFuel
      | S m =>
          match f_fp st with
          | None => UB "stream closed"
          | Some rest =>
              match fgets_K rest with
              | None => Exit 0
              | Some (line, rest') =>
                  let inbuf := cstr line in
                  let st1 := {| f_fp := Some rest'; f_flen := f_flen st; f_rptr := f_rptr st;
                                f_rtot := f_rtot st; f_rew := f_rew st |} in
                  if (match inbuf with c :: _ => c =? 35 | [] => false end)
                  then header_loop m st1 g cnt
                  else
                    do s <- chop inbuf ;;
                    do (nf, buf) <- split s (g_split g) ;;
                    if negb (nf =? 2) then Exit 0
                    else
                      let g1 := {| g_type := g_type g; g_count := g_count g;
                                   g_numbits := g_numbits g; g_split := buf;
                                   g_first := g_first g; g_open := g_open g |} in
                      do (st2, g2, cnt2) <- header_fields st1 g1 cnt ;;
                      header_loop m st2 g2 cnt2
              end
          end
      end
    else Ok (st, g).

  Definition run_header (st : fstate) (g : fglobals) : outcome (fstate * fglobals) :=
    header_loop (S (match f_fp st with Some r => length r | None => 0 end)) st g 0.

  (** rng_file_input.c:207-349 file_input_set(). *)
  Definition file_input_set (st : fstate) (g : fglobals) (s : N) : outcome (fstate * fglobals) :=
    let reset := negb (s =? 0) in
    let fp := if reset then None else f_fp st in
    match fp with
    | None =>
        match fopen g with
        | None => Exit 0
        | Some (bytes, g1) =>
            run_header {| f_fp := Some bytes; f_flen := f_flen st; f_rptr := 0;
                          f_rtot := if reset then 0%Z else f_rtot st;
                          f_rew := if reset then 0 else f_rew st |} g1
        end
    | Some _ =>
        if (f_flen st <=? f_rptr st)%Z then
          run_header {| f_fp := contents; f_flen := f_flen st; f_rptr := 0;
                        f_rtot := f_rtot st; f_rew := add32 (f_rew st) 1 |} g
        else Ok (st, g)
    end.

  (** bits.c:363-394 bit2uint(): [buf] holds the characters stored by fgets and
      the NUL behind them; the rest of the 1024-character buffer is
      uninitialised.  char is signed. *)
  Fixpoint bit2uint (n : nat) (buf : list N) (acc : N) : outcome N :=
    match n with
    | O => Ok acc
    | S m => match buf with
             | [] => UB "uninitialised character"
             | c :: t => bit2uint m t
                           (u32_of_Z (2 * Z.of_N acc
                              + (if c <? 128 then Z.of_N c else Z.of_N c - 256) - 48))
             end
    end.

  (** The unsigned conversion (uint) f of rng_file_input.c:126 and the product
      with UINT_MAX: the cast applies to f alone. *)
  Definition float_conv (f : double) : outcome N :=
    match dtrunc f with
    | Some z => if ((0 <=? z) && (z <? 2 ^ 32))%Z
                then Ok (mul32 (Z.to_N z) (2 ^ 32 - 1)) else UB "conversion of double to unsigned"
    | None => UB "conversion of double to unsigned"
    end.

  (** The scanned value; "iret" is uninitialised unless a conversion was
      done: 0 makes the program exit, EOF (-1) does not. *)
  Definition use {A} (r : scanned A) : outcome A :=
    match r with
    | ScanOk v => Ok v
    | ScanFail => Exit 0
    | ScanEof => UB "iret is uninitialised"
    | ScanRange => UB "sscanf: value out of range"
    end.

  (** rng_file_input.c:102-164: the switch on filetype. *)
  Definition convert (t : N) (numbits : Z) (line : list N) : outcome N :=
    let inbuf := cstr line in
    if (t =? 100) || (t =? 105) || (t =? 117) then use (scan_uint 10 inbuf)
    else if (t =? 101) || (t =? 69) || (t =? 102) || (t =? 70) || (t =? 103)
    then do f <- use (scan_lg inbuf) ;; float_conv f
    else if t =? 111 then use (scan_uint 8 inbuf)
    else if (t =? 120) || (t =? 88) then use (scan_uint 16 inbuf)
    else if t =? 98 then
      (* blen is unsigned: a negative filenumbits becomes huge *)
      bit2uint (N.to_nat (u32_of_Z numbits)) (line ++ [0]) 0
    else Exit 0.

  (** rng_file_input.c:77-192 file_input_get(). *)
  Definition file_input_get (st : fstate) (g : fglobals) : outcome (N * fstate * fglobals) :=
    match f_fp st with
    | None => Exit 0
    | Some rest =>
        match fgets_K rest with
        | None => Exit 0
        | Some (line, rest') =>
            do iret <- convert (g_type g) (g_numbits g) line ;;
            do rptr <- incr_off (f_rptr st) ;;
            do rtot <- incr_off (f_rtot st) ;;
            let st1 := {| f_fp := Some rest'; f_flen := f_flen st; f_rptr := rptr;
                          f_rtot := rtot; f_rew := f_rew st |} in
            if (rptr =? f_flen st)%Z then
              do (st2, g2) <- file_input_set st1 g 0 ;; Ok (iret, st2, g2)
            else Ok (iret, st1, g)
        end
    end.

  (** rng_file_input.c:49-61 and 63-68: what the report asks for. *)
  Definition get_rewind_cnt (st : fstate) : N :=
    if (0 <? f_rew st) && (f_rptr st =? 0)%Z then f_rew st - 1 else f_rew st.
  Definition get_rtot (st : fstate) : Z := f_rtot st.

  (** Consecutive reads: the values returned, in order. *)
  Fixpoint reads {A} (get : fstate -> fglobals -> outcome (A * fstate * fglobals))
      (n : nat) (st : fstate) (g : fglobals) : outcome (list A * fstate * fglobals) :=
    match n with
    | O => Ok ([], st, g)
    | S m => do (v, st1, g1) <- get st g ;;
             do (vs, st2, g2) <- reads get m st1 g1 ;;
             Ok (v :: vs, st2, g2)
    end.

  (** ** libdieharder/rng_file_input_raw.c *)

  (** What stat(filename) finds.  A stat that fails for another reason than
      EBADF leaves sbuf uninitialised (lines 131-141); a path name never
      gives EBADF. *)
  Inductive node := Regular | Directory | Other | Missing.
  Variable kind : node.

  (** rng_file_input_raw.c:118-170: executed once per process. *)
  Definition raw_first (st : fstate) (g : fglobals) : outcome (fstate * fglobals) :=
    if g_first g then
      let done_with flen count :=
        Ok ({| f_fp := None; f_flen := flen; f_rptr := f_rptr st; f_rtot := f_rtot st;
               f_rew := f_rew st |},
            {| g_type := g_type g; g_count := count; g_numbits := g_numbits g;
               g_split := g_split g; g_first := false; g_open := g_open g |}) in
      match kind with
      | Regular =>
          let size := match contents with Some b => Z.of_nat (length b) | None => 0%Z end in
          if (size / 4 <? 16)%Z then Exit 0 else done_with (size / 4)%Z (size / 4)%Z
      | Directory => Exit 0
      | Other => done_with 0%Z (g_count g)
      | Missing => UB "sbuf is uninitialised"
      end
    else Ok (st, g).

  (** rng_file_input_raw.c:101-239 file_input_raw_set(). *)
  Definition file_input_raw_set (st0 : fstate) (g0 : fglobals) (s : N) : outcome (fstate * fglobals) :=
    do (st, g) <- raw_first st0 g0 ;;
    let reset := negb (s =? 0) in
    let close := reset && (match f_fp st with Some _ => true | None => false end) in
    let fp := if close then None else f_fp st in
    let g1 := if close
              then {| g_type := g_type g; g_count := g_count g; g_numbits := g_numbits g;
                      g_split := g_split g; g_first := g_first g; g_open := g_open g - 1 |}
              else g in
    match fp with
    | None =>
        match fopen g1 with
        | None => Exit 0
        | Some (bytes, g2) =>
            Ok ({| f_fp := Some bytes; f_flen := f_flen st; f_rptr := 0;
                   f_rtot := if reset then 0%Z else f_rtot st;
                   f_rew := if reset then 0 else f_rew st |}, g2)
        end
    | Some _ =>
        if negb (f_flen st =? 0)%Z && (f_flen st <=? f_rptr st)%Z then
          Ok ({| f_fp := contents; f_flen := f_flen st; f_rptr := 0;
                 f_rtot := f_rtot st; f_rew := add32 (f_rew st) 1 |}, g1)
        else Ok (st, g1)
    end.

  (** fread(&iret,4,1,fp) on a little-endian machine. *)
  Definition fread_word (rest : list N) : option (N * list N) :=
    match rest with
    | a :: b :: c :: d :: t => Some (a + 256 * b + 65536 * c + 16777216 * d, t)
    | _ => None
    end.

  (** rng_file_input_raw.c:40-85 file_input_raw_get(). *)
  Definition file_input_raw_get (st : fstate) (g : fglobals) : outcome (N * fstate * fglobals) :=
    match f_fp st with
    | None => Exit 0
    | Some rest =>
        match fread_word rest with
        | None => Exit 0
        | Some (iret, rest') =>
            do rptr <- incr_off (f_rptr st) ;;
            do rtot <- incr_off (f_rtot st) ;;
            let st1 := {| f_fp := Some rest'; f_flen := f_flen st; f_rptr := rptr;
                          f_rtot := rtot; f_rew := f_rew st |} in
            if negb (f_flen st =? 0)%Z && (rptr =? f_flen st)%Z then
              do (st2, g2) <- file_input_raw_set st1 g 0 ;; Ok (iret, st2, g2)
            else Ok (iret, st1, g)
        end
    end.
End Input.

(** ** dieharder/output_rnds.c *)

(** Decimal digits of a number, most significant first, as printf prints
    them; [fuel] bounds the number of digits. *)
Fixpoint dec_digits (fuel : nat) (n : N) : list N :=
  match fuel with
  | O => []
  | S m => if n <? 10 then [48 + n] else dec_digits m (n / 10) ++ [48 + n mod 10]
  end.
(** printf("%lu") of an unsigned long: at most 20 digits. *)
Definition print_lu (n : N) : list N := dec_digits 20 n.
(** printf("%10u"): right-adjusted in ten columns. *)
Definition print_10u (n : N) : list N :=
  let d := print_lu n in repeat 32 (10 - length d) ++ d.

Definition bytes_of (s : string) : list N :=
  map (fun c => N.of_nat (Ascii.nat_of_ascii c)) (list_ascii_of_string s).

(** output_rnds.c:118-121 (type "d") and 128-131 (type "f"). *)
Definition rule : list N := bytes_of "#==================================================================" ++ [10].
Definition out_header (t : N) (name : list N) (seed tsamples : N) : list N :=
  rule ++ bytes_of "# generator " ++ name ++ bytes_of "  seed = " ++ print_lu seed ++ [10]
  ++ rule ++ bytes_of "type: " ++ [t; 10] ++ bytes_of "count: " ++ print_lu tsamples ++ [10]
  ++ bytes_of "numbit: 32" ++ [10].

(** output_rnds.c:122-125: [draws] are the values of the calls of
    gsl_rng_get, converted to unsigned int; the loop variable is an unsigned
    int, so it only ends for tsamples < 2^32. *)
Definition output_uint (name : list N) (seed tsamples : N) (draw : nat -> N) : outcome (list N) :=
  if tsamples <? 2 ^ 32 then
    Ok (out_header 100 name seed tsamples
        ++ concat (map (fun i => print_10u (w32 (draw i)) ++ [10]) (seq 0 (N.to_nat tsamples))))
  else OutOfFuel.

(** output_rnds.c:132-135: "%0.10f" of the uniform deviates, [print] being
    the text printf produces. *)
Definition output_float (print : double -> list N) (name : list N) (seed tsamples : N)
    (draw : nat -> double) : outcome (list N) :=
  if tsamples <? 2 ^ 32 then
    Ok (out_header 102 name seed tsamples
        ++ concat (map (fun i => print (draw i) ++ [10]) (seq 0 (N.to_nat tsamples))))
  else OutOfFuel.

(** output_rnds.c:84-95: the words, little-endian; tsamples = 0 never ends. *)
Definition word_bytes (w : N) : list N :=
  [w mod 256; w / 256 mod 256; w / 65536 mod 256; w / 16777216 mod 256].
Definition output_binary (tsamples : N) (draw : nat -> N) : outcome (list N) :=
  if (0 <? tsamples) && (tsamples <? 2 ^ 32) then
    Ok (concat (map (fun i => word_bytes (w32 (draw i))) (seq 0 (N.to_nat tsamples))))
  else OutOfFuel.
