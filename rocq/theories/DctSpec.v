(** The discrete cosine transform, and what is expected of the GSL's transform. *)
From Coq Require Export Reals.
From Verif Require Export DctModel KsReals KsSpec OpermStatSpec RankLawSpec.
Open Scope R_scope.

(** the transform of type II *)
Definition dct2 (n : nat) (x : nat -> R) (i : nat) : R := rsum n (fun j => x j * cos (PI * (INR j + 1 / 2) * INR i / INR n)).
(** the words of a vector as real numbers *)
Definition word (l : list N) (j : nat) : R := IZR (Z.of_N (nth j l 0%N)).

(** gsl_fft_real_radix2_transform, as documented: for n a power of two, the
    first half of the result is the real part of the Fourier transform. *)
Definition transforms (fft : list R -> outcome (list R)) : Prop := forall e d, length d = (2 ^ e)%nat ->
  exists f, fft d = Ok f /\ length f = length d /\
  forall k, (2 * k <= length d)%nat -> nth k f 0 = rsum (length d) (fun m => nth m d 0 * cos (2 * PI * INR k * INR m / INR (length d))).
(** the lengths the test can use *)
Definition usable (len : nat) : Prop := (1 <= len <= 4)%nat \/ exists e, len = (2 ^ e)%nat.

(** the model of the program with real numbers *)
Definition transform (fft : list R -> outcome (list R)) (l : list N) : outcome (list R) := fDCT2_fft reals cos PI fft l (length l).
Definition adjusted (fft : list R -> outcome (list R)) (w : N) (l : list N) : outcome (list R) := dct_of reals cos PI fft (length l) w l.
(** coefficient i of the adjusted transform *)
Definition coefficient (fft : list R -> outcome (list R)) (w : N) (i : nat) (l : list N) : R :=
  match adjusted fft w l with Ok v => nth i v 0 | _ => 0 end.

(** the first position of the largest absolute value *)
Definition peak (v : list R) (i : nat) : Prop := (i < length v)%nat /\
  (forall k, (k < length v)%nat -> Rabs (nth k v 0) <= Rabs (nth i v 0)) /\ forall k, (k < i)%nat -> Rabs (nth k v 0) < Rabs (nth i v 0).
(** the test, in exact arithmetic *)
Definition primary (fft : list R -> outcome (list R)) (len : nat) (w : N) (inputs : list (list N)) : outcome (list R) :=
  dct_primary reals cos PI fft len w inputs.
Definition fallback (fft : list R -> outcome (list R)) (P : R -> R -> R) (len : nat) (w : N) (inputs : list (list N)) : outcome (list R) :=
  dct_fallback reals cos PI fft P len w inputs.
