(** C161, continued: the law of the divisors of the program's pairs. *)
From Coq Require Import Lia FinFun.
From Verif Require Import BaseLemmas PropGcd.
From Verif Require Export GcdModel GcdSpec.
Open Scope N_scope.

(** [l] is the list, without repetition, of the pairs of numbers from 1 to [m] in which
    the program finds the divisor [k]. *)
Definition lists_divisor (m k : N) (l : list (N * N)) : Prop :=
  NoDup l /\ forall u v, In (u, v) l <-> (1 <= u <= m /\ 1 <= v <= m /\ exists d, euclid 65 u v 0 = Ok (k, d)).

Lemma found u v k : 1 <= u < 2 ^ 32 -> 1 <= v < 2 ^ 32 -> (exists d, euclid 65 u v 0 = Ok (k, d)) <-> N.gcd u v = k.
Proof.
  intros U V. destruct (C39_euclid u v ltac:(lia) ltac:(lia) ltac:(lia) ltac:(lia)) as (d & E & _). rewrite E. split.
  - intros (d' & Q). now injection Q.
  - intros <-. now exists d.
Qed.

(** As many pairs have the divisor k as there are pairs up to m/k with the divisor 1:
    this is where 1/k^2 comes from. *)
Theorem C161_law : forall m k la lb, m < 2 ^ 32 -> 1 <= k -> lists_divisor m k la -> lists_divisor (m / k) 1 lb -> length la = length lb.
Proof.
  intros m k la lb M K (DA & A) (DB & B).
  assert (Q : m / k <= m) by (apply N.div_le_upper_bound; nia).
  apply Nat.le_antisymm.
  - rewrite <- (map_length (fun p => (fst p / k, snd p / k)) la). apply NoDup_incl_length.
    + assert (H : forall u v, In (u, v) la -> u = k * (u / k) /\ v = k * (v / k)).
      { intros u v I. apply A in I. destruct I as (U & V & E). apply found in E; try lia. subst k.
        destruct (N.gcd_divide_l u v) as (a & Ea). destruct (N.gcd_divide_r u v) as (b & Eb). set (g := N.gcd u v) in *.
        split; [rewrite Ea at 2; rewrite N.div_mul by lia; lia|rewrite Eb at 2; rewrite N.div_mul by lia; lia]. }
      clear -DA H. induction DA as [|(u, v) l N D IH]; cbn [map]; constructor.
      * intro I. apply in_map_iff in I. destruct I as ((a, b) & E & I). cbn [fst snd] in E.
        destruct (H a b (or_intror I)) as (Ha & Hb). destruct (H u v (or_introl eq_refl)) as (Hu & Hv).
        apply N. assert (a = u /\ b = v) as (-> & ->); [|exact I]. injection E as E1 E2. rewrite E1 in Ha. rewrite E2 in Hb. split; congruence.
      * apply IH. intros; apply H; now right.
    + intros (x, y) I. apply in_map_iff in I. destruct I as ((u, v) & E & I). cbn [fst snd] in E. injection E as <- <-.
      apply A in I. destruct I as (U & V & E). apply found in E; try lia.
      destruct (N.gcd_divide_l u v) as (a & Ea). destruct (N.gcd_divide_r u v) as (b & Eb). rewrite E in Ea, Eb.
      assert (G : N.gcd (u / k) (v / k) = 1) by (rewrite <- E; apply N.gcd_div_gcd; [lia|reflexivity]).
      assert (P : 1 <= u / k <= m / k) by (split; [rewrite Ea, N.div_mul by lia; nia|apply N.div_le_mono; lia]).
      assert (R : 1 <= v / k <= m / k) by (split; [rewrite Eb, N.div_mul by lia; nia|apply N.div_le_mono; lia]).
      apply B. split; [exact P|]. split; [exact R|]. apply found; [lia|lia|exact G].
  - rewrite <- (map_length (fun p => (k * fst p, k * snd p)) lb). apply NoDup_incl_length.
    + apply FinFun.Injective_map_NoDup; [|exact DB]. intros (a, b) (c, d) E. cbn [fst snd] in E. injection E as E1 E2. f_equal; nia.
    + intros (x, y) I. apply in_map_iff in I. destruct I as ((u, v) & E & I). cbn [fst snd] in E. injection E as <- <-.
      apply B in I. destruct I as (U & V & E). apply found in E; try lia. pose proof (N.mul_div_le m k ltac:(lia)) as L.
      assert (P : 1 <= k * u <= m) by nia. assert (R : 1 <= k * v <= m) by nia.
      apply A. split; [exact P|]. split; [exact R|]. apply found; [lia|lia|]. rewrite N.gcd_mul_mono_l, E. lia.
Qed.
(** Up to 7: seven pairs have the divisor 2, as many as are coprime up to 3. *)
Example C161_law_ex : lists_divisor 3 1 [(1, 1); (1, 2); (1, 3); (2, 1); (2, 3); (3, 1); (3, 2)] /\
  lists_divisor 7 2 [(2, 2); (2, 4); (2, 6); (4, 2); (4, 6); (6, 2); (6, 4)].
Proof.
  assert (G : forall m k l, m < 2 ^ 32 -> NoDup l -> (forall u v, In (u, v) l -> 1 <= u <= m /\ 1 <= v <= m /\ N.gcd u v = k) ->
    forallb (fun u => forallb (fun v => negb (N.gcd u v =? k) || existsb (fun p => (fst p =? u) && (snd p =? v)) l)%bool (map N.of_nat (seq 1 (N.to_nat m)))) (map N.of_nat (seq 1 (N.to_nat m))) = true ->
    lists_divisor m k l).
  { intros m k l M D H F. split; [exact D|]. intros u v. split.
    - intro I. destruct (H u v I) as (U & V & E). split; [exact U|]. split; [exact V|]. apply found; [lia|lia|exact E].
    - intros (U & V & E). apply found in E; try lia. rewrite forallb_forall in F.
      specialize (F u). rewrite in_map_iff in F. specialize (F ltac:(exists (N.to_nat u); split; [lia|apply in_seq; lia])). rewrite forallb_forall in F.
      specialize (F v). rewrite in_map_iff in F. specialize (F ltac:(exists (N.to_nat v); split; [lia|apply in_seq; lia])).
      rewrite E, N.eqb_refl in F. cbn [negb orb] in F. apply existsb_exists in F. destruct F as ((a, b) & I & F). cbn [fst snd] in F.
      apply andb_prop in F. destruct F as (F1 & F2). apply N.eqb_eq in F1, F2. now subst. }
  split; (apply G; [reflexivity|repeat constructor; cbn; intuition discriminate| |vm_compute; reflexivity]);
    intros u v I; cbn [In] in I; repeat destruct I as [I|I]; try contradiction; injection I as <- <-; vm_compute; repeat split; discriminate.
Qed.
Print Assumptions C161_law.
