(** C156: the seed of a run without -S (random_seed.c). *)
From Coq Require Import ZArith NArith Lia List.
From Verif Require Import Base BaseLemmas RandomSeedModel.
Import ListNotations.
Open Scope Z_scope.

(** an instant: seconds and microseconds of the clock *)
Definition instant (sec usec : Z) : Prop := 0 <= sec /\ 0 <= usec < 1000000.
Definition microseconds (sec usec : Z) : Z := sec * 1000000 + usec.
Definition bytes4 (l : list N) : Prop := length l = 4%nat /\ Forall (fun b => (b < 256)%N) l.

Lemma seed_clock sec usec : random_seed None sec usec = Ok (Z.to_N ((sec + usec) mod 2 ^ 32)).
Proof. unfold random_seed, u32_of_Z. reflexivity. Qed.

(** With /dev/urandom: every reading of four bytes gives a 32-bit seed of its
    own, and every 32-bit seed is given by one. *)
Theorem C156_device : forall l rest s u, bytes4 l -> exists x, random_seed (Some (l ++ rest)) s u = Ok x /\ (x < 2 ^ 32)%N /\
  forall l' rest' s' u', bytes4 l' -> (random_seed (Some (l' ++ rest')) s' u' = Ok x <-> l' = l).
Proof.
  intros l rest s u (L & F). destruct l as [|a [|b [|c [|d [|e l]]]]]; try discriminate L.
  repeat match goal with H : Forall _ (_ :: _) |- _ => inversion H; clear H; subst end.
  exists (seed_of_bytes a b c d). split; [reflexivity|]. split; [unfold seed_of_bytes; lia|].
  intros l' rest' s' u' (L' & F'). destruct l' as [|a' [|b' [|c' [|d' [|e' l']]]]]; try discriminate L'.
  repeat match goal with H : Forall _ (_ :: _) |- _ => inversion H; clear H; subst end.
  split.
  - intro E. cbn [random_seed app] in E. injection E as E. unfold seed_of_bytes in E.
    assert (a' = a) by lia. subst. assert (b' = b) by lia. subst. assert (c' = c) by lia. subst. assert (d' = d) by lia. subst. reflexivity.
  - intro E. injection E as -> -> -> ->. reflexivity.
Qed.
Theorem C156_device_all : forall x s u, (x < 2 ^ 32)%N -> exists l, bytes4 l /\ random_seed (Some l) s u = Ok x.
Proof.
  intros x s u X. exists [x mod 256; x / 256 mod 256; x / 65536 mod 256; x / 16777216]%N. split.
  - split; [reflexivity|]. repeat constructor; try (apply N.mod_lt; lia). apply N.div_lt_upper_bound; lia.
  - cbn [random_seed]. f_equal. unfold seed_of_bytes.
    pose proof (N.div_mod x 256 ltac:(lia)). pose proof (N.div_mod (x / 256) 256 ltac:(lia)). pose proof (N.div_mod (x / 65536) 256 ltac:(lia)).
    rewrite N.div_div in * by lia. change (256 * 256)%N with 65536%N in *. change (65536 * 256)%N with 16777216%N in *. lia.
Qed.

(** Without it: two instants have the same seed exactly if their sums agree
    modulo 2^32. *)
Theorem C156_clock : forall s u s' u', random_seed None s u = random_seed None s' u' <-> (s + u - (s' + u')) mod 2 ^ 32 = 0.
Proof.
  intros s u s' u'. rewrite !seed_clock. pose proof (Z.mod_pos_bound (s + u) (2 ^ 32) ltac:(lia)). pose proof (Z.mod_pos_bound (s' + u') (2 ^ 32) ltac:(lia)).
  split.
  - intro E. assert (E' : Z.to_N ((s + u) mod 2 ^ 32) = Z.to_N ((s' + u') mod 2 ^ 32)) by (injection E; auto).
    apply Z2N.inj in E'; [|lia|lia]. rewrite Zminus_mod, E', Z.sub_diag. reflexivity.
  - intro E. do 2 f_equal. apply Z.mod_divide in E; [|lia]. destruct E as (q & E).
    replace (s + u) with (s' + u' + q * 2 ^ 32) by lia. apply Z_mod_plus_full.
Qed.
(** Within one second seeds differ, ... *)
Theorem C156_same_second : forall s u u', instant s u -> instant s u' -> u <> u' -> random_seed None s u <> random_seed None s u'.
Proof.
  intros s u u' (_ & U) (_ & U') D E. apply C156_clock in E. apply Z.mod_divide in E; [|lia]. destruct E as (q & E). nia.
Qed.
(** ... and so do those of runs between 11.6 days (10^6 seconds) and 136 years apart. *)
Theorem C156_far : forall s u s' u', instant s u -> instant s' u' -> s + 1000000 <= s' < s + 2 ^ 32 - 1000000 ->
  random_seed None s u <> random_seed None s' u'.
Proof.
  intros s u s' u' (_ & U) (_ & U') D E. apply C156_clock in E. apply Z.mod_divide in E; [|lia]. destruct E as (q & E). nia.
Qed.
(** Refuted in between: after any instant but the first microsecond of a second
    the same seed comes again 999999 microseconds later, and again, as many
    times as the instant has microseconds. *)
Theorem C156_refuted : forall s u k, instant s u -> 0 < k <= u ->
  instant (s + k) (u - k) /\ microseconds (s + k) (u - k) = microseconds s u + k * 999999 /\
  random_seed None (s + k) (u - k) = random_seed None s u.
Proof.
  intros s u k (S & U) K. split; [unfold instant; lia|]. split; [unfold microseconds; lia|].
  rewrite !seed_clock. do 3 f_equal. lia.
Qed.
(** In a stretch of [n] seconds, n million instants, there are at most
    n + 999999 seeds. *)
Theorem C156_few : forall s n, 0 <= s -> exists seeds : list N, length seeds = (Z.to_nat (Z.of_nat n + 999999))%nat /\
  forall s' u, instant s' u -> s <= s' < s + Z.of_nat n -> exists x, random_seed None s' u = Ok x /\ In x seeds.
Proof.
  intros s n S. exists (map (fun i => u32_of_Z (s + Z.of_nat i)) (seq 0 (Z.to_nat (Z.of_nat n + 999999)))).
  split; [now rewrite map_length, seq_length|]. intros s' u (S' & U) I. eexists. split; [reflexivity|].
  apply in_map_iff. exists (Z.to_nat (s' + u - s)). split; [f_equal; lia|]. apply in_seq. lia.
Qed.
(** A device that gives fewer than four bytes leaves the seed undefined. *)
Theorem C156_short_refuted : forall l s u, (length l < 4)%nat -> exists msg, random_seed (Some l) s u = UB msg.
Proof. intros l s u L. destruct l as [|a [|b [|c [|d l]]]]; cbn in L; try lia; eexists; reflexivity. Qed.

Example C156_ex : bytes4 [1; 2; 3; 4]%N /\ random_seed (Some [1; 2; 3; 4; 5]%N) 7 7 = Ok 67305985%N /\
  instant 1700000000 500000 /\ random_seed None 1700000000 500000 = Ok 1700500000%N /\
  random_seed None 1700000001 499999 = Ok 1700500000%N.
Proof. repeat split; try lia; repeat constructor; lia. Qed.

Print Assumptions C156_device.
Print Assumptions C156_device_all.
Print Assumptions C156_clock.
Print Assumptions C156_same_second.
Print Assumptions C156_far.
Print Assumptions C156_refuted.
Print Assumptions C156_few.
Print Assumptions C156_short_refuted.
