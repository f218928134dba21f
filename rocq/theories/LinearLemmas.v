(** Maps on words that are linear over the exclusive or, their powers, and the
    periods of linear congruential sequences modulo a power of two. *)
From Coq Require Import Znumtheory.
From Verif Require Export Base BaseLemmas.
Open Scope N_scope.

(** ** Matrices: the list of the images of 1, 2, 4, ... *)
Fixpoint mapp (m : list N) (v : N) : N :=
  match m with
  | [] => 0
  | c :: m' => N.lxor (if N.odd v then c else 0) (mapp m' (N.div2 v))
  end.
Definition mmul (a b : list N) : list N := map (mapp a) b.
Fixpoint mpow (m : list N) (p : positive) : list N :=
  match p with
  | xH => m
  | xO p => mpow (mmul m m) p
  | xI p => mmul m (mpow (mmul m m) p)
  end.

Definition linear (f : N -> N) := f 0 = 0 /\ forall a b, f (N.lxor a b) = N.lxor (f a) (f b).

Lemma div2_lxor a b : N.div2 (N.lxor a b) = N.lxor (N.div2 a) (N.div2 b).
Proof. rewrite !N.div2_spec. apply N.shiftr_lxor. Qed.
Lemma odd_lxor a b : N.odd (N.lxor a b) = xorb (N.odd a) (N.odd b).
Proof. rewrite <- !N.bit0_odd. apply N.lxor_spec. Qed.

Lemma mapp_0 m : mapp m 0 = 0.
Proof. induction m as [|c m IH]; [reflexivity|]. cbn. exact IH. Qed.
Lemma mapp_lxor m : forall a b, mapp m (N.lxor a b) = N.lxor (mapp m a) (mapp m b).
Proof.
  induction m as [|c m IH]; intros a b; [reflexivity|]. cbn [mapp].
  rewrite odd_lxor, div2_lxor, IH.
  destruct (N.odd a), (N.odd b); cbn [xorb]; apply N.bits_inj; intro i; rewrite !N.lxor_spec, ?N.bits_0;
    repeat match goal with |- context [N.testbit ?x ?j] => destruct (N.testbit x j) end; reflexivity.
Qed.
Lemma mapp_linear m : linear (mapp m).
Proof. split; [apply mapp_0|apply mapp_lxor]. Qed.

Lemma mapp_mmul a b v : mapp (mmul a b) v = mapp a (mapp b v).
Proof.
  revert v. induction b as [|c b IH]; intro v; cbn [mmul map mapp].
  - symmetry. apply mapp_0.
  - change (map (mapp a) b) with (mmul a b). rewrite IH, mapp_lxor. f_equal.
    destruct (N.odd v); [reflexivity|symmetry; apply mapp_0].
Qed.

Lemma mpow_iter p : forall m v, mapp (mpow m p) v = Pos.iter (mapp m) v p.
Proof.
  assert (D : forall p m v, Pos.iter (mapp (mmul m m)) v p = Pos.iter (mapp m) (Pos.iter (mapp m) v p) p).
  { intros q m v. induction q as [|q IH] using Pos.peano_ind.
    - cbn. apply mapp_mmul.
    - rewrite !Pos.iter_succ, IH, mapp_mmul. rewrite <- Pos.iter_swap. reflexivity. }
  induction p as [p IH|p IH|]; intros m v; cbn [mpow Pos.iter].
  - rewrite mapp_mmul, IH, D. reflexivity.
  - rewrite IH, D. reflexivity.
  - reflexivity.
Qed.

(** The matrix of a linear map on words of [n] bits. *)
Fixpoint columns (f : N -> N) (n : nat) (k : N) : list N :=
  match n with
  | O => []
  | S n' => f (2 ^ k) :: columns f n' (N.succ k)
  end.
Lemma columns_app f : linear f -> forall n k v, v < 2 ^ N.of_nat n -> mapp (columns f n k) v = f (N.shiftl v k).
Proof.
  intros [F0 FX]. induction n as [|n IH]; intros k v Hv; cbn [columns mapp].
  - cbn in Hv. replace v with 0 by lia. rewrite N.shiftl_0_l. symmetry. exact F0.
  - assert (Hd : N.div2 v < 2 ^ N.of_nat n).
    { rewrite Nat2N.inj_succ, N.pow_succ_r' in Hv. rewrite N.div2_div.
      apply N.div_lt_upper_bound; lia. }
    rewrite IH by exact Hd.
    assert (E : N.shiftl v k = N.lxor (if N.odd v then 2 ^ k else 0) (N.shiftl (N.div2 v) (N.succ k))).
    { apply N.bits_inj. intro i. rewrite N.lxor_spec.
      destruct (N.lt_ge_cases i k) as [L|L].
      - rewrite !N.shiftl_spec_low by lia.
        destruct (N.odd v); [rewrite N.pow2_bits_false by lia|rewrite N.bits_0]; reflexivity.
      - rewrite N.shiftl_spec_high' by exact L.
        destruct (N.eq_dec i k) as [->|Hn].
        + rewrite N.sub_diag, N.bit0_odd, N.shiftl_spec_low by lia.
          destruct (N.odd v); [rewrite N.pow2_bits_true|rewrite N.bits_0]; reflexivity.
        + rewrite (N.shiftl_spec_high' _ (N.succ k)) by lia.
          rewrite N.div2_spec, N.shiftr_spec'.
          replace (i - N.succ k + 1) with (i - k) by lia.
          destruct (N.odd v); [rewrite N.pow2_bits_false by lia|rewrite N.bits_0];
            destruct (N.testbit v (i - k)); reflexivity. }
    rewrite E, FX. f_equal. destruct (N.odd v); [reflexivity|symmetry; exact F0].
Qed.
Lemma columns_0 f n v : linear f -> v < 2 ^ N.of_nat n -> mapp (columns f n 0) v = f v.
Proof. intros F H. rewrite columns_app by assumption. rewrite N.shiftl_0_r. reflexivity. Qed.

(** Powers of a linear map that maps words to words. *)
Lemma iter_columns f n p v : linear f -> (forall x, x < 2 ^ N.of_nat n -> f x < 2 ^ N.of_nat n) ->
  v < 2 ^ N.of_nat n -> Pos.iter f v p = mapp (mpow (columns f n 0) p) v.
Proof.
  intros F B Hv. rewrite mpow_iter.
  assert (G : Pos.iter f v p = Pos.iter (mapp (columns f n 0)) v p /\ Pos.iter f v p < 2 ^ N.of_nat n).
  { induction p as [|p IH] using Pos.peano_ind.
    - cbn [Pos.iter]. split; [symmetry; apply columns_0; assumption|apply B; exact Hv].
    - rewrite !Pos.iter_succ. destruct IH as [E L]. split.
      + rewrite <- E. symmetry. apply columns_0; assumption.
      + apply B. exact L. }
  apply G.
Qed.

(** ** Return times *)
Definition itr {A} (f : A -> A) (k : N) (v : A) : A := N.iter k f v.
Lemma itr_add {A} (f : A -> A) a b v : itr f (a + b) v = itr f a (itr f b v).
Proof. unfold itr. apply N.iter_add. Qed.
Lemma itr_succ {A} (f : A -> A) a v : itr f (N.succ a) v = f (itr f a v).
Proof. unfold itr. apply N.iter_succ. Qed.
Lemma itr_mul_fix {A} (f : A -> A) k v : itr f k v = v -> forall q, itr f (q * k) v = v.
Proof.
  intros H q. induction q as [|q IH] using N.peano_ind; [reflexivity|].
  rewrite N.mul_succ_l, N.add_comm, itr_add, IH. exact H.
Qed.
Lemma itr_gcd {A} (f : A -> A) a b v : itr f a v = v -> itr f b v = v -> itr f (N.gcd a b) v = v.
Proof.
  intros Ha Hb. destruct (N.eq_dec a 0) as [->|Ha0]; [rewrite N.gcd_0_l; exact Hb|].
  destruct (N.gcd_bezout_pos a b) as (x & y & E); [lia|].
  pose proof (itr_mul_fix f a v Ha x) as Hx. rewrite E, itr_add, (itr_mul_fix f b v Hb y) in Hx. exact Hx.
Qed.

(** Proper divisors of [n] divide one of the quotients by the listed primes. *)
Definition prime_list (ps : list N) := Forall (fun p => 1 < p /\ forall d, (d | p) -> d = 1 \/ d = p) ps.
Fixpoint product (ps : list N) : N := match ps with [] => 1 | p :: ps => p * product ps end.
Lemma divide_product_one e : forall ps, prime_list ps -> (e | product ps) ->
  (forall p, In p ps -> ~ (p | e)) -> e = 1.
Proof.
  induction ps as [|p ps IH]; intros P D H; cbn [product] in D.
  - apply N.divide_1_r. exact D.
  - inversion P as [|? ? [P1 P2] P3]; subst. apply IH; [exact P3| |intros q Hq; apply H; right; exact Hq].
    apply (N.gauss e p); [exact D|].
    destruct (P2 (N.gcd e p) (N.gcd_divide_r e p)) as [E|E]; [exact E|].
    exfalso. apply (H p); [left; reflexivity|]. rewrite <- E. apply N.gcd_divide_l.
Qed.
Lemma proper_divisor ps d : prime_list ps -> (d | product ps) ->
  (forall p, In p ps -> ~ (d | product ps / p)) -> d = product ps.
Proof.
  intros P [e E] H.
  assert (e = 1); [|subst e; rewrite E; symmetry; apply N.mul_1_l].
  apply (divide_product_one e ps P); [exists d; rewrite E; apply N.mul_comm|].
  intros p Hp [q Eq]. apply (H p Hp).
  assert (1 < p) by (unfold prime_list in P; rewrite Forall_forall in P; apply (P p Hp)).
  exists q. rewrite E, Eq. replace (q * p * d) with (q * d * p) by (rewrite <- !N.mul_assoc; f_equal; apply N.mul_comm).
  apply N.div_mul. lia.
Qed.
(** Two equal points of an orbit of length [n] are a multiple of [n] apart, when
    no quotient of [n] by a prime brings the point back. *)
Lemma exact_period {A} (f : A -> A) ps v : prime_list ps -> itr f (product ps) v = v ->
  (forall p, In p ps -> itr f (product ps / p) v <> v) ->
  forall k, itr f k v = v -> (product ps | k).
Proof.
  intros P H N0 k Hk. pose proof (itr_gcd f k _ v Hk H) as Hg.
  assert (E : N.gcd k (product ps) = product ps).
  { apply proper_divisor; [exact P|apply N.gcd_divide_r|].
    intros p Hp [q Eq]. apply (N0 p Hp). rewrite Eq. apply itr_mul_fix. exact Hg. }
  rewrite <- E at 1. apply N.gcd_divide_l.
Qed.

(** A cheap test for primality. *)
Fixpoint no_divisor (fuel : nat) (d p : N) : bool :=
  match fuel with
  | O => false
  | S fuel => if p <? d * d then true else if p mod d =? 0 then false else no_divisor fuel (N.succ d) p
  end.
Lemma no_divisor_spec p : forall fuel d, 1 < d -> no_divisor fuel d p = true ->
  forall x, d <= x -> x * x <= p -> ~ (x | p).
Proof.
  induction fuel as [|fuel IH]; intros d Hd H x Hx Hp; cbn [no_divisor] in H; [discriminate|].
  destruct (p <? d * d) eqn:E1; [apply N.ltb_lt in E1; nia|].
  destruct (p mod d =? 0) eqn:E2; [discriminate|].
  destruct (N.eq_dec x d) as [->|Hn].
  - intro D. apply N.mod_divide in D; [|lia]. apply N.eqb_neq in E2. contradiction.
  - apply (IH (N.succ d)); [lia|exact H|lia|exact Hp].
Qed.
Lemma prime_test p : 1 < p -> no_divisor 400 2 p = true -> 1 < p /\ forall d, (d | p) -> d = 1 \/ d = p.
Proof.
  intros Hp H. split; [exact Hp|]. intros d [q E].
  destruct (N.eq_dec d 1) as [->|Hd1]; [left; reflexivity|].
  destruct (N.eq_dec q 1) as [->|Hq1]; [right; lia|exfalso].
  assert (d <> 0) by (intros ->; lia). assert (q <> 0) by (intros ->; lia).
  destruct (N.le_ge_cases d q) as [L|L].
  - apply (no_divisor_spec p 400 2 ltac:(lia) H d); [lia|nia|exists q; exact E].
  - apply (no_divisor_spec p 400 2 ltac:(lia) H q); [lia|nia|exists d; lia].
Qed.

(** ** Linear congruential sequences modulo a power of two *)
Section LCG.
Variables a c : N.
Hypothesis Ha : a mod 4 = 1.
Hypothesis Hc : c mod 2 = 1.
Definition lcg (x : N) : N := a * x + c.

Lemma lcg_two_pow k : exists t C, forall x, itr lcg (2 ^ k) x = x + 2 ^ k * (4 * t * x + 2 * C + 1).
Proof.
  induction k as [|k (t & C & E)] using N.peano_ind.
  - exists (a / 4), (c / 2). intro x. change (itr lcg (2 ^ 0) x) with (a * x + c). rewrite N.pow_0_r.
    pose proof (N.div_mod a 4 ltac:(lia)) as D. rewrite Ha in D.
    pose proof (N.div_mod c 2 ltac:(lia)) as D2. rewrite Hc in D2. 
    set (q := a / 4) in *. set (r := c / 2) in *. clearbody q r. rewrite D, D2 at 1.
    clear. nia.
  - exists (t + 2 * 2 ^ k * t * t), (C + 2 * 2 ^ k * t * C + 2 ^ k * t).
    intro x. rewrite N.pow_succ_r'. replace (2 * 2 ^ k) with (2 ^ k + 2 ^ k) by lia.
    rewrite itr_add, !E. set (h := 2 ^ k). clearbody h. clear. ring.
Qed.

Lemma lcg_block k q : exists U, U mod 2 = q mod 2 /\ forall x, exists u, u mod 2 = q mod 2 /\
  itr lcg (2 ^ k * q) x = x + 2 ^ k * u.
Proof.
  exists q. split; [reflexivity|]. destruct (lcg_two_pow k) as (t & C & E).
  induction q as [|q IH] using N.peano_ind; intro x.
  - exists 0. split; [reflexivity|]. rewrite N.mul_0_r. cbn. lia.
  - destruct (IH x) as (u & Hu & Eu). rewrite N.mul_succ_r, N.add_comm, itr_add, Eu, E.
    eexists. split; [|rewrite <- N.add_assoc, <- N.mul_add_distr_l; reflexivity].
    set (y := x + 2 ^ k * u). clearbody y.
    replace (u + (4 * t * y + 2 * C + 1)) with (u + 1 + (2 * t * y + C) * 2) by ring.
    rewrite N.mod_add by lia. rewrite N.add_mod, Hu, <- N.add_mod by lia. rewrite N.add_1_r. reflexivity.
Qed.

Lemma lcg_unreduced w k x : itr (fun y => (a * y + c) mod 2 ^ w) k x mod 2 ^ w = itr lcg k x mod 2 ^ w.
Proof.
  assert (P : 2 ^ w <> 0) by (apply N.pow_nonzero; lia).
  induction k as [|k IH] using N.peano_ind; [reflexivity|]. rewrite !itr_succ.
  rewrite N.mod_mod by exact P. unfold lcg at 1.
  set (y := itr (fun y => (a * y + c) mod 2 ^ w) k x) in *. set (z := itr lcg k x) in *. clearbody y z.
  rewrite (N.add_mod (a * y)), (N.mul_mod a y), IH, <- N.mul_mod, <- N.add_mod by exact P. reflexivity.
Qed.

(** The sequence x -> a x + c modulo 2^w returns to a value only after a
    multiple of 2^w steps. *)
Lemma lcg_period w k x : x < 2 ^ w -> itr (fun y => (a * y + c) mod 2 ^ w) k x = x -> (2 ^ w | k).
Proof.
  intros Hx H.
  assert (E : itr lcg k x mod 2 ^ w = x).
  { rewrite <- lcg_unreduced, H. apply N.mod_small. exact Hx. }
  assert (P : 2 ^ w <> 0) by (apply N.pow_nonzero; lia).
  assert (G : forall j, j <= w -> (2 ^ j | k)).
  { induction j as [|j IH] using N.peano_ind; intro Hj; [apply N.divide_1_l|].
    destruct (IH ltac:(lia)) as (q & Eq).
    destruct (lcg_block j q) as (_ & _ & B). destruct (B x) as (u & Hu & Eu).
    rewrite N.mul_comm in Eq. rewrite Eq in E. rewrite Eu in E.
    assert (D : (2 ^ w | 2 ^ j * u)).
    { pose proof (N.div_mod (x + 2 ^ j * u) (2 ^ w) P) as D. rewrite E in D.
      exists ((x + 2 ^ j * u) / 2 ^ w). lia. }
    replace w with (j + (w - j)) in D by lia. rewrite N.pow_add_r in D.
    apply N.mul_divide_cancel_l in D; [|apply N.pow_nonzero; lia].
    replace (w - j) with (N.succ (w - j - 1)) in D by lia. rewrite N.pow_succ_r' in D.
    destruct D as (z & Ez).
    assert (Q : q mod 2 = 0).
    { rewrite <- Hu, Ez, N.mul_comm, <- N.mul_assoc, N.mul_comm. apply N.mod_mul. lia. }
    apply N.mod_divide in Q; [|lia]. destruct Q as (r & ->). exists r. rewrite Eq, N.pow_succ_r'. ring. }
  apply G. lia.
Qed.
End LCG.

(** ** Powers of xorshift maps *)
Lemma linear_id : linear (fun x => x). Proof. split; reflexivity. Qed.
Lemma linear_comp f g : linear f -> linear g -> linear (fun x => f (g x)).
Proof. intros [F0 FX] [G0 GX]. split; [rewrite G0; exact F0|]. intros a b. rewrite GX. apply FX. Qed.
Lemma linear_lxor f g : linear f -> linear g -> linear (fun x => N.lxor (f x) (g x)).
Proof.
  intros [F0 FX] [G0 GX]. split; [rewrite F0, G0; reflexivity|]. intros a b. rewrite FX, GX.
  apply N.bits_inj; intro i; rewrite !N.lxor_spec.
  repeat match goal with |- context [N.testbit ?x ?j] => destruct (N.testbit x j) end; reflexivity.
Qed.
Lemma linear_shr s : linear (fun x => N.shiftr x s).
Proof. split; [apply N.shiftr_0_l|]. intros. apply N.shiftr_lxor. Qed.
Lemma w32_lxor a b : w32 (N.lxor a b) = N.lxor (w32 a) (w32 b).
Proof.
  unfold w32. rewrite <- !N.land_ones.
  apply N.bits_inj; intro i; rewrite !N.land_spec, !N.lxor_spec, !N.land_spec.
  repeat match goal with |- context [N.testbit ?x ?j] => destruct (N.testbit x j) end; reflexivity.
Qed.
Lemma linear_shl s : linear (fun x => w32 (N.shiftl x s)).
Proof.
  split; [rewrite N.shiftl_0_l; reflexivity|]. intros. rewrite N.shiftl_lxor. apply w32_lxor.
Qed.
Lemma w32_lt x : w32 x < 2 ^ 32. Proof. apply N.mod_lt. discriminate. Qed.
Lemma lxor_w32_lt a b : a < 2 ^ 32 -> b < 2 ^ 32 -> N.lxor a b < 2 ^ 32.
Proof.
  intros Ha Hb. rewrite <- (N.mod_small a (2 ^ 32) Ha), <- (N.mod_small b (2 ^ 32) Hb).
  change (N.lxor (w32 a) (w32 b) < 2 ^ 32). rewrite <- w32_lxor. apply w32_lt.
Qed.
Lemma shiftr_lt x s : x < 2 ^ 32 -> N.shiftr x s < 2 ^ 32.
Proof.
  intro H. rewrite N.shiftr_div_pow2. eapply N.le_lt_trans; [|exact H]. apply N.div_le_upper_bound.
  - apply N.pow_nonzero. lia.
  - rewrite <- (N.mul_1_l x) at 1. apply N.mul_le_mono_r.
    assert (2 ^ s <> 0) by (apply N.pow_nonzero; lia). lia.
Qed.

(** A linear map on words whose matrix satisfies the checks below moves every
    word but 0 through a cycle of [product ps] words. *)
Definition mxor (a b : list N) : list N := map (fun p => N.lxor (fst p) (snd p)) (combine a b).
Definition mid32 : list N := columns (fun x => x) 32 0.
Lemma mapp_mxor : forall a b v, length a = length b -> mapp (mxor a b) v = N.lxor (mapp a v) (mapp b v).
Proof.
  induction a as [|x a IH]; intros [|y b] v H; try discriminate; [reflexivity|].
  cbn [mxor combine map mapp fst snd]. change (map _ (combine a b)) with (mxor a b).
  rewrite IH by (injection H; auto).
  destruct (N.odd v); apply N.bits_inj; intro i; rewrite !N.lxor_spec, ?N.bits_0;
  repeat match goal with |- context [N.testbit ?x ?j] => destruct (N.testbit x j) end; reflexivity.
Qed.
Lemma mapp_mid32 v : v < 2 ^ 32 -> mapp mid32 v = v.
Proof. intro H. apply (columns_0 (fun x => x) 32 v linear_id H). Qed.
Lemma length_mmul a b : length (mmul a b) = length b. Proof. apply map_length. Qed.
Lemma length_mpow p : forall m, length (mpow m p) = length m.
Proof.
  induction p as [p IH|p IH|]; intro m; cbn [mpow]; [rewrite length_mmul, IH, length_mmul|rewrite IH, length_mmul|];
  reflexivity.
Qed.

Definition npow (m : list N) (k : N) : list N := match k with 0 => mid32 | Npos p => mpow m p end.
Lemma itr_npow f k v : linear f -> (forall x, x < 2 ^ 32 -> f x < 2 ^ 32) -> v < 2 ^ 32 ->
  itr f k v = mapp (npow (columns f 32 0) k) v.
Proof.
  intros F B Hv. destruct k as [|p]; cbn [npow].
  - rewrite mapp_mid32 by exact Hv. reflexivity.
  - apply (iter_columns f 32); assumption.
Qed.

Lemma full_period f ps ws : linear f -> (forall x, x < 2 ^ 32 -> f x < 2 ^ 32) -> prime_list ps ->
  npow (columns f 32 0) (product ps) = mid32 ->
  length ws = length ps ->
  (forall p w, In (p, w) (combine ps ws) ->
     mmul w (mxor (npow (columns f 32 0) (product ps / p)) mid32) = mid32 /\ product ps / p <> 0) ->
  forall v k, 0 < v -> v < 2 ^ 32 -> itr f k v = v -> (product ps | k).
Proof.
  intros F B P E1 L E2 v k V0 V H. apply (exact_period f ps v P); [| |exact H].
  - rewrite (itr_npow f) by assumption. rewrite E1. apply mapp_mid32. exact V.
  - intros p Hp Q.
    assert (W : exists w, In (p, w) (combine ps ws)).
    { clear - L Hp. revert ws L. induction ps as [|q ps IH]; intros [|w ws] L; try discriminate; [destruct Hp|].
      destruct Hp as [->|Hp]; [exists w; left; reflexivity|].
      destruct (IH Hp ws) as (w' & Hw); [injection L; auto|]. exists w'. right. exact Hw. }
    destruct W as (w & W). destruct (E2 p w W) as [E3 NZ].
    rewrite (itr_npow f) in Q by assumption.
    assert (Z : mapp mid32 v = 0).
    { rewrite <- E3, mapp_mmul, mapp_mxor.
      - rewrite Q, mapp_mid32, N.lxor_nilpotent by exact V. apply mapp_0.
      - destruct (product ps / p); [contradiction|]. cbn [npow]. rewrite length_mpow. reflexivity. }
    rewrite mapp_mid32 in Z by exact V. lia.
Qed.
