(** Errors of the floating-point statistics. *)
From Coq Require Import QArith Qround Qabs Qpower Lqa Lia ZArith List Permutation.
From Verif Require Import Model.Base Model.Float Spec.Mean Proof.FloatP.
Import ListNotations.
Local Open Scope Q_scope.

(** * Products of k factors 1 + d with |d| <= unit *)

Fixpoint pow (a : Q) (k : nat) : Q := match k with O => 1 | S k => a * pow a k end.

Lemma pow_pos a k : 0 < a -> 0 < pow a k.
Proof. intros H. induction k as [|k IH]; cbn [pow]; [reflexivity|]. nra. Qed.

Lemma pow_add a j k : pow a (j + k) == pow a j * pow a k.
Proof. induction j as [|j IH]; cbn [pow Nat.add]; [ring|]. rewrite IH. ring. Qed.

Lemma pow_Z a k : ~ a == 0 -> pow a k == a ^ (Z.of_nat k).
Proof.
  intros N. induction k as [|k IH]; [reflexivity|]. cbn [pow]. rewrite IH.
  rewrite Nat2Z.inj_succ. unfold Z.succ. rewrite Qpower_plus by exact N. change (a ^ 1) with a. ring.
Qed.

Definition lo (k : nat) : Q := pow (1 - unit) k.
Definition hi (k : nat) : Q := pow (1 + unit) k.

Lemma lo_pos k : 0 < lo k.
Proof. apply pow_pos. pose proof unit_small. lra. Qed.
Lemma hi_pos k : 0 < hi k.
Proof. apply pow_pos. pose proof unit_pos. lra. Qed.
Lemma lo_S k : lo (S k) == (1 - unit) * lo k. Proof. reflexivity. Qed.
Lemma hi_S k : hi (S k) == (1 + unit) * hi k. Proof. reflexivity. Qed.
Lemma lo_add j k : lo (j + k) == lo j * lo k. Proof. apply pow_add. Qed.
Lemma hi_add j k : hi (j + k) == hi j * hi k. Proof. apply pow_add. Qed.
Lemma lo_le_1 k : lo k <= 1.
Proof.
  induction k as [|k IH]; [cbn; lra|]. rewrite lo_S. pose proof unit_pos. pose proof (lo_pos k). nra.
Qed.
Lemma hi_ge_1 k : 1 <= hi k.
Proof.
  induction k as [|k IH]; [cbn; lra|]. rewrite hi_S. pose proof unit_pos. nra.
Qed.

Lemma lo_bernoulli k : 1 - inject_Z (Z.of_nat k) * unit <= lo k.
Proof.
  induction k as [|k IH]; [unfold lo; cbn [pow]; change (inject_Z (Z.of_nat 0)) with 0; lra|]. rewrite lo_S, Nat2Z.inj_succ. unfold Z.succ. rewrite inject_Z_plus. change (inject_Z 1) with 1.
  pose proof unit_pos. pose proof unit_small.
  assert (0 <= inject_Z (Z.of_nat k)) by (change 0 with (inject_Z 0); rewrite <- Zle_Qle; lia).
  set (x := inject_Z (Z.of_nat k)) in *. nra.
Qed.

Lemma hi_bernoulli k : hi k * (1 - inject_Z (Z.of_nat k) * unit) <= 1.
Proof.
  induction k as [|k IH]; [unfold hi; cbn [pow]; change (inject_Z (Z.of_nat 0)) with 0; lra|]. rewrite hi_S, Nat2Z.inj_succ. unfold Z.succ. rewrite inject_Z_plus. change (inject_Z 1) with 1.
  pose proof unit_pos. pose proof (hi_pos k).
  assert (0 <= inject_Z (Z.of_nat k)) by (change 0 with (inject_Z 0); rewrite <- Zle_Qle; lia).
  set (x := inject_Z (Z.of_nat k)) in *. set (h := hi k) in *. 
  assert ((1 + unit) * h * (1 - (x + 1) * unit) <= h * (1 - x * unit)); [|lra].
  setoid_replace ((1 + unit) * h * (1 - (x + 1) * unit)) with (h * ((1 + unit) * (1 - (x + 1) * unit))) by ring.
  apply Qmult_le_l; [assumption|]. nra.
Qed.

Lemma lo_half k : (Z.of_nat k <= 2 ^ 52)%Z -> 1 # 2 <= lo k.
Proof.
  intros H. pose proof (lo_bernoulli k). assert (L : inject_Z (Z.of_nat k) <= 2 ^ 52) by (rewrite <- two_Z by lia; rewrite <- Zle_Qle; exact H).
  assert (U : 2 ^ 52 * unit == 1 # 2) by (vm_compute; reflexivity). pose proof unit_pos.
  assert (inject_Z (Z.of_nat k) * unit <= 2 ^ 52 * unit) by (apply Qmult_le_r; assumption). lra.
Qed.

Lemma hi_two k : (Z.of_nat k <= 2 ^ 52)%Z -> hi k <= 2.
Proof.
  intros H. pose proof (hi_bernoulli k). assert (L : inject_Z (Z.of_nat k) <= 2 ^ 52) by (rewrite <- two_Z by lia; rewrite <- Zle_Qle; exact H).
  assert (U : 2 ^ 52 * unit == 1 # 2) by (vm_compute; reflexivity). pose proof unit_pos.
  assert (inject_Z (Z.of_nat k) * unit <= 2 ^ 52 * unit) by (apply Qmult_le_r; assumption).
  pose proof (hi_pos k). set (h := hi k) in *. set (w := inject_Z (Z.of_nat k) * unit) in *. nra.
Qed.

Definition within (k : nat) (y x : Q) : Prop := lo k * x <= y /\ y <= hi k * x.

#[global] Instance within_proper k : Proper (Qeq ==> Qeq ==> iff) (within k).
Proof. intros x x' Ex y y' Ey. unfold within. rewrite Ex, Ey. tauto. Qed.

Lemma within_refl k x : 0 <= x -> within k x x.
Proof. intros H. pose proof (lo_le_1 k). pose proof (hi_ge_1 k). split; nra. Qed.

Lemma within_nonneg k y x : 0 <= x -> within k y x -> 0 <= y.
Proof. intros H [W _]. pose proof (lo_pos k). nra. Qed.

Lemma within_close y x : 0 <= x -> close y x -> within 1 y x.
Proof.
  unfold close, within. intros H C. rewrite (Qabs_pos x) in C by exact H. apply Qabs_Qle_condition in C.
  unfold lo, hi. cbn [pow]. split; lra.
Qed.

Lemma within_trans j k z y x : 0 <= x -> within j z y -> within k y x -> within (j + k) z x.
Proof.
  intros H [A1 A2] [B1 B2]. unfold within. rewrite lo_add, hi_add.
  pose proof (lo_pos j). pose proof (hi_pos j). split.
  - apply Qle_trans with (lo j * y); [|exact A1]. rewrite <- Qmult_assoc. apply Qmult_le_l; assumption.
  - apply Qle_trans with (hi j * y); [exact A2|]. rewrite <- Qmult_assoc. apply Qmult_le_l; assumption.
Qed.

Lemma within_weaken j k y x : (j <= k)%nat -> 0 <= x -> within j y x -> within k y x.
Proof.
  intros L H W. replace k with ((k - j) + j)%nat by lia. apply within_trans with y; [exact H| |exact W].
  apply within_refl. eapply within_nonneg; eassumption.
Qed.

Lemma within_add k y x y' x' : within k y x -> within k y' x' -> within k (y + y') (x + x').
Proof. intros [A B] [C D]. split; rewrite Qmult_plus_distr_r; lra. Qed.

Lemma within_scale k y x b : 0 < b -> within k y x -> within k (y * b) (x * b).
Proof.
  intros P [A B]. split; rewrite Qmult_assoc; apply Qmult_le_r; assumption.
Qed.

Lemma within_div k y x b : 0 < b -> within k y x -> within k (y / b) (x / b).
Proof. intros P. apply within_scale, Qinv_lt_0_compat, P. Qed.

Lemma within_zero k y x : x == 0 -> within k y x -> y == 0.
Proof. intros E [A B]. rewrite E in A, B. lra. Qed.

Lemma within_square d D : close d D -> within 2 (d * d) (D * D).
Proof.
  intros C. unfold close in C. apply Qabs_Qle_condition in C. unfold within, lo, hi. cbn [pow].
  pose proof unit_pos. pose proof unit_small. set (u := unit) in *. clearbody u.
  destruct (Qlt_le_dec D 0) as [L | L].
  - rewrite (Qabs_neg D) in C by lra.
    split.
    + setoid_replace ((1 - u) * ((1 - u) * 1) * (D * D)) with (((1 - u) * - D) * ((1 - u) * - D)) by ring.
      setoid_replace (d * d) with ((- d) * (- d)) by ring. apply Qmult_le_compat_nonneg; nra.
    + setoid_replace ((1 + u) * ((1 + u) * 1) * (D * D)) with (((1 + u) * - D) * ((1 + u) * - D)) by ring.
      setoid_replace (d * d) with ((- d) * (- d)) by ring. apply Qmult_le_compat_nonneg; nra.
  - rewrite (Qabs_pos D) in C by lra.
    split.
    + setoid_replace ((1 - u) * ((1 - u) * 1) * (D * D)) with (((1 - u) * D) * ((1 - u) * D)) by ring.
      apply Qmult_le_compat_nonneg; nra.
    + setoid_replace ((1 + u) * ((1 + u) * 1) * (D * D)) with (((1 + u) * D) * ((1 + u) * D)) by ring.
      apply Qmult_le_compat_nonneg; nra.
Qed.

(** * Ranges *)

(** Zero, or between 2^a and 2^b. *)
Definition range (a b : Z) (x : Q) : Prop := x == 0 \/ (2 ^ a <= x /\ x <= 2 ^ b).

#[global] Instance range_proper a b : Proper (Qeq ==> iff) (range a b).
Proof. intros x x' Ex. unfold range. rewrite Ex. tauto. Qed.

Lemma range_normal a b x : (-1022 <= a)%Z -> (b < 1023)%Z -> range a b x -> normal x.
Proof.
  intros A B [E | [L1 L2]]; [left; exact E|right].
  pose proof (two_pos a). rewrite Qabs_pos by lra. split.
  - eapply Qle_trans; [|exact L1]. apply two_mono. exact A.
  - eapply Qle_lt_trans; [exact L2|]. assert (b + 1 <= 1023)%Z as T by lia. apply two_mono in T. rewrite two_succ in T.
    pose proof (two_pos b). lra.
Qed.

Lemma range_within k a b y x : (Z.of_nat k <= 2 ^ 52)%Z -> range a b x -> within k y x -> range (a - 1) (b + 1) y.
Proof.
  intros K [E | [L1 L2]] W; [left; eapply within_zero; eassumption|right]. destruct W as [W1 W2].
  pose proof (lo_half k K). pose proof (hi_two k K). pose proof (two_pos a). pose proof (two_pos b).
  assert (2 ^ a == 2 * 2 ^ (a - 1)) by (rewrite <- two_succ; replace (a - 1 + 1)%Z with a by lia; reflexivity).
  rewrite two_succ. split; nra.
Qed.

Lemma range_nonneg a b x : range a b x -> 0 <= x.
Proof. intros [E | [L _]]; [lra|]. pose proof (two_pos a). lra. Qed.

Lemma range_weaken a b a' b' x : (a' <= a)%Z -> (b <= b')%Z -> range a b x -> range a' b' x.
Proof.
  intros A B [E | [L1 L2]]; [left; exact E|right]. apply two_mono in A, B. lra.
Qed.

Lemma sq_nonneg x : 0 <= x * x.
Proof. nra. Qed.

(** Multiples of 2^g. *)
Definition grid (g : Z) (x : Q) : Prop := exists z, x == inject_Z z * 2 ^ g.

Lemma grid_sub g x y : grid g x -> grid g y -> grid g (x - y).
Proof.
  intros [a A] [b B]. exists (a - b)%Z. rewrite A, B. unfold Z.sub. rewrite inject_Z_plus, inject_Z_opp. ring.
Qed.

Lemma grid_Z g z : (g <= 0)%Z -> grid g (inject_Z z).
Proof.
  intros H. exists (z * 2 ^ (- g))%Z. rewrite inject_Z_mult, two_Z by lia. rewrite <- Qmult_assoc, <- two_plus.
  replace (- g + g)%Z with 0%Z by lia. change (2 ^ 0) with 1. ring.
Qed.

Lemma grid_square g x b : grid g x -> Qabs x <= 2 ^ b -> range (g + g) (b + b) (x * x).
Proof.
  intros [z Z] L. destruct (Z.eq_dec z 0) as [-> | N].
  - left. rewrite Z. change (inject_Z 0) with 0. ring.
  - right. assert (A : x * x == Qabs x * Qabs x).
    { rewrite <- Qabs_Qmult. symmetry. apply Qabs_pos. nra. }
    rewrite A, !two_plus. pose proof (two_pos g). pose proof (Qabs_nonneg x).
    assert (G : 2 ^ g <= Qabs x).
    { rewrite Z, Qabs_Qmult, (Qabs_pos (2 ^ g)) by lra. rewrite inject_Z_abs.
      assert (1 <= inject_Z (Z.abs z)) by (change 1 with (inject_Z 1); rewrite <- Zle_Qle; lia). nra. }
    split; apply Qmult_le_compat_nonneg; lra.
Qed.

Lemma grid_normal g x b : (-1022 <= g)%Z -> (b < 1023)%Z -> grid g x -> Qabs x <= 2 ^ b -> normal x.
Proof.
  intros Hg Hb [z Z] L. destruct (Z.eq_dec z 0) as [-> | N].
  - left. rewrite Z. change (inject_Z 0) with 0. ring.
  - right. split.
    + apply Qle_trans with (2 ^ g); [apply two_mono; exact Hg|]. pose proof (two_pos g).
      rewrite Z, Qabs_Qmult, (Qabs_pos (2 ^ g)) by lra. rewrite inject_Z_abs.
      assert (1 <= inject_Z (Z.abs z)) by (change 1 with (inject_Z 1); rewrite <- Zle_Qle; lia). nra.
    + eapply Qle_lt_trans; [exact L|]. assert (T : (b + 1 <= 1023)%Z) by lia. apply two_mono in T. rewrite two_succ in T.
      pose proof (two_pos b). lra.
Qed.

Section Sums.
  Variables (fuse : bool) (fm : float) (m : Q).
  Hypothesis Fm : is fm m.
  Hypothesis Gm : grid (-90) m.
  Hypothesis Bm : 0 <= m /\ m <= 2 ^ 66.

  Definition sqdev (l : list N) : Q := qsum (map (fun c => (m - count c) * (m - count c)) l).

  Definition small (c : N) : Prop := (c < 4294967296)%N.

  Lemma count_bounds c : small c -> 0 <= count c /\ count c <= 2 ^ 32.
  Proof.
    unfold small, count. intros H. split.
    - change 0 with (inject_Z 0). rewrite <- Zle_Qle. lia.
    - rewrite <- two_Z by lia. rewrite <- Zle_Qle. change (2 ^ 32)%Z with 4294967296%Z. lia.
  Qed.

  Lemma dev_abs c : small c -> Qabs (m - count c) <= 2 ^ 67.
  Proof.
    intros H. apply count_bounds in H. apply Qabs_Qle_condition.
    assert (2 ^ 67 == 2 * 2 ^ 66) by (change 67%Z with (66 + 1)%Z; apply two_succ).
    assert (2 ^ 32 <= 2 ^ 66) by (apply two_mono; lia). lra.
  Qed.

  Lemma dev_grid c : grid (-90) (m - count c).
  Proof. apply grid_sub; [exact Gm|apply grid_Z; lia]. Qed.

  Lemma dev_range c : small c -> range (-180) 134 ((m - count c) * (m - count c)).
  Proof. intros H. apply (grid_square (-90) _ 67); [apply dev_grid|apply dev_abs, H]. Qed.

  Lemma dev_float c : small c -> exists d, is (fsub fm (float_of (Z.of_N c))) d /\ close d (m - count c).
  Proof.
    intros H. apply fsub_close; [exact Fm| |].
    - unfold count, float_of. apply round64_Z. unfold small in H. change (2 ^ 53)%Z with 9007199254740992%Z. lia.
    - apply (grid_normal (-90) _ 67); [lia|lia|apply dev_grid|apply dev_abs, H].
  Qed.

  Lemma sqdev_range l : Forall small l -> (Z.of_nat (length l) <= 2 ^ 32)%Z -> range (-180) 166 (sqdev l).
  Proof.
    intros F L.
    assert (G : sqdev l == 0 \/ (2 ^ (-180) <= sqdev l /\ sqdev l <= inject_Z (Z.of_nat (length l)) * 2 ^ 134)).
    { clear L. induction F as [|c l Hc F IH]; [left; reflexivity|].
      unfold sqdev, qsum in *. cbn [map fold_right length]. set (r := fold_right _ _ _) in *.
      rewrite Nat2Z.inj_succ. unfold Z.succ. rewrite inject_Z_plus. change (inject_Z 1) with 1.
      pose proof (dev_range c Hc) as R. unfold range in R. pose proof (two_pos 134). pose proof (two_pos (-180)).
      assert (0 <= inject_Z (Z.of_nat (length l))) by (change 0 with (inject_Z 0); rewrite <- Zle_Qle; lia).
      set (x := (m - count c) * (m - count c)) in *. set (n := inject_Z (Z.of_nat (length l))) in *. clearbody x n r.
      set (a := 2 ^ 134) in *. set (b := 2 ^ (-180)) in *. clearbody a b.
      assert (0 <= n * a) by (apply Qmult_le_0_compat; lra).
      destruct R as [R | [R1 R2]], IH as [E | [E1 E2]]; [left; lra|right; split; lra..]. }
    destruct G as [G | [G1 G2]]; [left; exact G|right; split; [exact G1|]].
    eapply Qle_trans; [exact G2|]. change 166%Z with (32 + 134)%Z. rewrite two_plus. apply Qmult_le_r; [apply two_pos|].
    rewrite <- two_Z by lia. rewrite <- Zle_Qle. exact L.
  Qed.

  Lemma sqdev_nonneg l : 0 <= sqdev l.
  Proof.
    unfold sqdev, qsum. induction l as [|c l IH]; cbn [map fold_right]; [lra|]. pose proof (sq_nonneg (m - count c)). lra.
  Qed.

  Lemma square_add fd ft d D t S k : is fd d -> close d D -> range (-180) 134 (D * D) -> is ft t -> within k t S ->
    (3 <= k)%nat -> (Z.of_nat k < 2 ^ 52)%Z -> 0 <= S -> range (-180) 166 (S + D * D) ->
    exists t', is (fmuladd fuse fd fd ft) t' /\ within (Datatypes.S k) t' (S + D * D).
  Proof.
    intros Id Cd Rd It Wt K3 K52 S0 Rs.
    pose proof (sq_nonneg D) as D0.
    assert (Sum : forall f p, within 3 p (D * D) -> (exists z, f = round64 z /\ z == p + t) ->
              exists t', is f t' /\ within (Datatypes.S k) t' (S + D * D)).
    { intros f p Wp (z & -> & Ez).
      assert (W : within k (t + p) (S + D * D)) by (apply within_add; [exact Wt|eapply within_weaken; [exact K3|exact D0|exact Wp]]).
      assert (R : range (-181) 167 (t + p)) by (eapply (range_within k (-180) 166); [lia|exact Rs|exact W]).
      assert (N : normal z) by (rewrite Ez, Qplus_comm; eapply range_normal; [| |exact R]; lia).
      destruct (round64_close z N) as (t' & I' & C'). exists t'. split; [exact I'|].
      rewrite Ez, Qplus_comm in C'.
      change (Datatypes.S k) with (1 + k)%nat. apply within_trans with (t + p); [lra| |exact W].
      apply within_close; [eapply range_nonneg, R|exact C']. }
    pose proof (within_square d D Cd) as W2.
    destruct Id as (a & -> & A). destruct It as (b & -> & B). destruct fuse; cbn [fmuladd].
    - apply (Sum _ (d * d)); [eapply within_weaken; [|exact D0|exact W2]; lia|].
      exists (a * a + b). split; [reflexivity|]. rewrite A, B. reflexivity.
    - assert (N2 : normal (d * d)).
      { eapply range_normal; [| |eapply (range_within 2 (-180) 134); [|exact Rd|exact W2]]; lia. }
      destruct (fmul_close (Fin a) (Fin a) d d) as (p & Ip & Cp); [exists a; auto|exists a; auto|exact N2|].
      apply (Sum _ p).
      + change 3%nat with (1 + 2)%nat. apply within_trans with (d * d); [exact D0| |exact W2].
        apply within_close; [|exact Cp]. nra.
      + apply fadd_is; [exact Ip|exists b; auto].
  Qed.

  Notation step := (fun ttl ct => let d := fsub fm (float_of (Z.of_N ct)) in fmuladd fuse d d ttl).

  Lemma range_part S x : 0 <= S -> range (-180) 134 x -> forall y, 0 <= y -> range (-180) 166 (S + (x + y)) ->
    (S == 0 \/ 2 ^ (-180) <= S) -> range (-180) 166 (S + x).
  Proof.
    intros S0 Rx y Y0 R Hs. pose proof (range_nonneg _ _ _ Rx).
    destruct Rx as [Ex | [X1 X2]].
    - destruct Hs as [Hs | Hs]; [left; lra|]. destruct R as [R | [R1 R2]]; [left; lra|right; lra].
    - right. destruct R as [R | [R1 R2]]; [|lra]. pose proof (two_pos (-180)). lra.
  Qed.

  Lemma sos_loop l : Forall small l -> forall ft t S k, is ft t -> within k t S -> (3 <= k)%nat ->
    (Z.of_nat (k + length l) < 2 ^ 52)%Z -> 0 <= S -> (S == 0 \/ 2 ^ (-180) <= S) -> range (-180) 166 (S + sqdev l) ->
    exists t', is (fold_left step l ft) t' /\ within (k + length l) t' (S + sqdev l).
  Proof.
    induction 1 as [|c l Hc F IH]; intros ft t S k It Wt K3 K52 S0 Hs R.
    - exists t. split; [exact It|]. cbn [length]. rewrite Nat.add_0_r. unfold sqdev. cbn [map qsum fold_right]. rewrite Qplus_0_r. exact Wt.
    - cbn [length] in K52. unfold sqdev, qsum in R. cbn [map fold_right] in R. fold (qsum (map (fun c => (m - count c) * (m - count c)) l)) in R.
      fold (sqdev l) in R. cbn [fold_left].
      pose proof (dev_range c Hc) as Rd. set (D := m - count c) in *.
      destruct (dev_float c Hc) as (d & Id & Cd). fold D in Cd.
      assert (R1 : range (-180) 166 (S + D * D)) by (eapply range_part; [exact S0|exact Rd|apply (sqdev_nonneg l)|exact R|exact Hs]).
      destruct (square_add _ ft d D t S k Id Cd Rd It Wt K3 ltac:(lia) S0 R1) as (t' & It' & Wt').
      destruct (IH _ t' (S + D * D) (Datatypes.S k) It' Wt') as (t2 & I2 & W2); [lia|lia|eapply range_nonneg, R1| | |].
      + destruct R1 as [E | [E _]]; [left; exact E|right; exact E].
      + rewrite <- Qplus_assoc. exact R.
      + exists t2. split; [exact I2|]. replace (k + length (c :: l))%nat with (Datatypes.S k + length l)%nat by (cbn [length]; lia).
        unfold sqdev, qsum. cbn [map fold_right]. rewrite Qplus_assoc. exact W2.
  Qed.

  Lemma sos_close l : Forall small l -> (Z.of_nat (length l) <= 2 ^ 32)%Z ->
    exists t, is (fold_left step l (Fin 0)) t /\ within (3 + length l) t (sqdev l).
  Proof.
    intros F L. destruct (sos_loop l F (Fin 0) 0 0 3) as (t & It & Wt); [apply is_fin|apply within_refl; lra|lia|lia|lra|left; reflexivity| |].
    - rewrite Qplus_0_l. apply sqdev_range; assumption.
    - exists t. split; [exact It|]. rewrite Qplus_0_l in Wt. exact Wt.
  Qed.

  Lemma sqdev_app a b : sqdev (a ++ b) == sqdev a + sqdev b.
  Proof.
    unfold sqdev, qsum. induction a as [|c a IH]; cbn [app map fold_right]; [lra|]. rewrite IH. ring.
  Qed.

  (** The sum over the shards; [e] is the number of counts in each. *)
  Lemma shards_loop e css : Forall (fun l => Forall small l /\ length l = e) css -> forall ft t l0,
    is ft t -> within (3 + e + length l0) t (sqdev (concat l0)) -> Forall (fun l => Forall small l /\ length l = e) l0 ->
    (Z.of_nat ((length l0 + length css) * e) <= 2 ^ 32)%Z -> (Z.of_nat (3 + e + length l0 + length css) < 2 ^ 52)%Z ->
    exists t', is (fold_left (fun sos l => fadd sos (fold_left step l (Fin 0))) css ft) t' /\
      within (3 + e + (length l0 + length css)) t' (sqdev (concat (l0 ++ css))).
  Proof.
    induction 1 as [|l css [Hl Ll] F IH]; intros ft t l0 It Wt F0 L1 L2.
    - exists t. split; [exact It|]. cbn [length]. rewrite Nat.add_0_r, app_nil_r. exact Wt.
    - cbn [fold_left]. assert (Len : forall x, Forall (fun l => Forall small l /\ length l = e) x -> length (concat x) = (length x * e)%nat).
      { induction 1 as [|y x [_ Y] Fx IHx]; [reflexivity|]. cbn [concat length]. rewrite app_length, IHx, Y. reflexivity. }
      assert (Sm : forall x, Forall (fun l => Forall small l /\ length l = e) x -> Forall small (concat x)).
      { induction 1 as [|y x [Y _] Fx IHx]; [constructor|]. cbn [concat]. apply Forall_app. auto. }
      assert (F1 : Forall (fun l => Forall small l /\ length l = e) (l0 ++ [l])) by (apply Forall_app; auto).
      cbn [length] in L1, L2.
      destruct (sos_close l Hl) as (s & Is & Ws); [rewrite Ll; nia|]. rewrite Ll in Ws.
      assert (R : range (-180) 166 (sqdev (concat (l0 ++ [l])))).
      { apply sqdev_range; [apply Sm, F1|]. rewrite (Len _ F1), app_length. cbn [length]. nia. }
      rewrite concat_app in R. cbn [concat] in R. rewrite app_nil_r, sqdev_app in R.
      assert (W : within (3 + e + length l0) (t + s) (sqdev (concat l0) + sqdev l)).
      { apply within_add; [exact Wt|]. eapply within_weaken; [|apply sqdev_nonneg|exact Ws]. lia. }
      assert (R2 : range (-181) 167 (t + s)) by (eapply (range_within _ (-180) 166); [|exact R|exact W]; lia).
      destruct (fadd_close ft _ t s It Is) as (t' & It' & Ct'); [eapply range_normal; [| |exact R2]; lia|].
      assert (Wt' : within (3 + e + length (l0 ++ [l])) t' (sqdev (concat (l0 ++ [l])))).
      { rewrite concat_app. cbn [concat]. rewrite app_nil_r, sqdev_app, app_length. cbn [length].
        replace (3 + e + (length l0 + 1))%nat with (1 + (3 + e + length l0))%nat by lia.
        apply within_trans with (t + s); [eapply range_nonneg, R| |exact W].
        apply within_close; [eapply range_nonneg, R2|exact Ct']. }
      destruct (IH _ t' (l0 ++ [l]) It' Wt' F1) as (t2 & I2 & W2).
      + rewrite app_length. cbn [length]. nia.
      + rewrite app_length. cbn [length]. lia.
      + exists t2. split; [exact I2|]. rewrite <- app_assoc in W2. cbn [app] in W2.
        rewrite app_length in W2. cbn [length] in *. replace (length l0 + Datatypes.S (length css))%nat with (length l0 + 1 + length css)%nat by lia.
        exact W2.
  Qed.
End Sums.

Lemma grid_le g g' x : (g' <= g)%Z -> grid g x -> grid g' x.
Proof.
  intros L [z Z]. exists (z * 2 ^ (g - g'))%Z. rewrite Z, inject_Z_mult, two_Z by lia. rewrite <- Qmult_assoc, <- two_plus.
  replace (g - g' + g')%Z with g by lia. reflexivity.
Qed.

#[global] Instance grid_proper g : Proper (Qeq ==> iff) (grid g).
Proof. intros x x' E. unfold grid. split; intros [z Z]; exists z; lra. Qed.

Lemma round64_grid x b y : 2 ^ b <= x -> x < 2 ^ 1023 -> (-1000 <= b)%Z -> is (round64 x) y -> grid (b - 52) y.
Proof.
  intros H1 H2 H3 I. assert (P : 0 < x) by (eapply Qlt_le_trans; [apply two_pos|exact H1]).
  unfold round64 in I. destruct (Qcompare_spec x 0) as [E | E | E]; [lra|lra|].
  destruct (round_pos_error false x P H2) as (w & R & _ & _ & _ & z & W). rewrite R in I.
  assert (Ey : y == w).
  { apply (is_fun (Fin (Qred w))); [exact I|]. exists (Qred w). split; [reflexivity|apply Qred_correct]. }
  rewrite Ey. eapply (grid_le (last_digit (qlog2 x))); [|exists z; exact W].
  pose proof (qlog2_ge x b P H1). unfold last_digit. lia.
Qed.

Lemma Q_of_Z_pos z : (0 < z)%Z -> 0 < inject_Z z.
Proof. intros H. change 0 with (inject_Z 0). rewrite <- Zlt_Qlt. exact H. Qed.

Lemma Q_of_Z_le z k : (0 <= k)%Z -> (z <= 2 ^ k)%Z -> inject_Z z <= 2 ^ k.
Proof. intros K H. rewrite <- two_Z by exact K. rewrite <- Zle_Qle. exact H. Qed.

Lemma mean_close P B : (0 <= P < 2 ^ 64)%Z -> (0 < B <= 2 ^ 32)%Z ->
  exists m, is (fdiv (float_of P) (float_of B)) m /\ within 2 m (inject_Z P / inject_Z B) /\ grid (-90) m /\ 0 <= m /\ m <= 2 ^ 66.
Proof.
  intros HP HB. pose proof (Q_of_Z_pos B ltac:(lia)) as PB. pose proof (Q_of_Z_le B 32 ltac:(lia) ltac:(lia)) as LB.
  assert (P0 : 0 <= inject_Z P) by (change 0 with (inject_Z 0); rewrite <- Zle_Qle; lia).
  pose proof (Q_of_Z_le P 64 ltac:(lia) ltac:(lia)) as LP.
  assert (IB : is (float_of B) (inject_Z B)) by (apply round64_Z; change (2 ^ 53)%Z with 9007199254740992%Z; change (2 ^ 32)%Z with 4294967296%Z in HB; lia).
  assert (RP : range 0 64 (inject_Z P)).
  { destruct (Z.eq_dec P 0) as [-> | N]; [left; reflexivity|right]. split; [|exact LP]. change (2 ^ 0) with (inject_Z 1). rewrite <- Zle_Qle. lia. }
  destruct (round64_close (inject_Z P)) as (p & Ip & Cp); [eapply range_normal; [| |exact RP]; lia|].
  pose proof (within_close _ _ P0 Cp) as Wp.
  assert (Rp : range (-1) 65 p) by (eapply (range_within 1 0 64); [lia|exact RP|exact Wp]).
  assert (Rq : range (-33) 65 (p / inject_Z B)).
  { destruct Rp as [E | [R1 R2]]; [left; rewrite E; unfold Qdiv; ring|right]. split.
    - apply Qle_shift_div_l; [exact PB|]. eapply Qle_trans; [|exact R1].
      apply Qle_trans with (2 ^ (-33) * 2 ^ 32); [apply Qmult_le_l; [apply two_pos|exact LB]|]. rewrite <- two_plus. apply two_mono. lia.
    - apply Qle_shift_div_r; [exact PB|]. eapply Qle_trans; [exact R2|]. pose proof (two_pos 65).
      assert (1 <= inject_Z B) by (change 1 with (inject_Z 1); rewrite <- Zle_Qle; lia). nra. }
  destruct (fdiv_is (float_of P) (float_of B) p (inject_Z B) Ip IB) as (z & Ez & Z); [lra|]. rewrite Ez.
  rewrite <- Z in Rq. destruct (round64_close z) as (m & Im & Cm); [eapply range_normal; [| |exact Rq]; lia|].
  pose proof (within_close _ _ (range_nonneg _ _ _ Rq) Cm) as Wm.
  exists m. split; [exact Im|].
  assert (Rm : range (-34) 66 m) by (eapply (range_within 1 (-33) 65); [lia|exact Rq|exact Wm]).
  split; [|split; [|split; [eapply range_nonneg, Rm|]]].
  - change 2%nat with (1 + 1)%nat. apply within_trans with (p / inject_Z B).
    + apply Qle_shift_div_l; [exact PB|lra].
    + rewrite <- Z. exact Wm.
    + apply within_div; [exact PB|exact Wp].
  - destruct Rq as [E | [R1 R2]].
    + assert (E' : m == 0) by (eapply within_zero; [exact E|exact Wm]). exists 0%Z. rewrite E'. reflexivity.
    + eapply (grid_le (-33 - 52)); [lia|]. eapply round64_grid; [exact R1| |lia|exact Im].
      eapply Qle_lt_trans; [exact R2|]. apply Qlt_le_trans with (2 ^ 66); [reflexivity|apply two_mono; lia].
  - destruct Rm as [E | [_ E]]; [|exact E]. rewrite E. apply Qlt_le_weak, two_pos.
Qed.

(** * Sums of squares *)

Lemma qsum_app a b : qsum (a ++ b) == qsum a + qsum b.
Proof. unfold qsum. induction a as [|x a IH]; cbn [app fold_right]; [lra|]. rewrite IH. ring. Qed.

Lemma qsum_perm a b : Permutation a b -> qsum a == qsum b.
Proof. unfold qsum. induction 1; cbn [fold_right]; lra. Qed.

Lemma sqdev_shift m mu l : sqdev m l ==
  sqdev mu l + (m - mu) * (m - mu) * inject_Z (Z.of_nat (length l)) +
  2 * (m - mu) * (mu * inject_Z (Z.of_nat (length l)) - qsum (map count l)).
Proof.
  unfold sqdev, qsum. induction l as [|c l IH]; cbn [map fold_right length].
  - change (inject_Z (Z.of_nat 0)) with 0. ring.
  - rewrite IH, Nat2Z.inj_succ. unfold Z.succ. rewrite inject_Z_plus. change (inject_Z 1) with 1. ring.
Qed.

(** The sum of the squares of the differences to [m] is the smallest for the mean. *)
Lemma sqdev_mean m l : (0 < length l)%nat -> let B := inject_Z (Z.of_nat (length l)) in let mu := average (map count l) in
  sqdev m l / B == variance (map count l) + (m - mu) * (m - mu).
Proof.
  intros L B mu. assert (PB : 0 < B) by (apply Q_of_Z_pos; lia).
  rewrite (sqdev_shift m mu l). fold B.
  assert (E : mu * B - qsum (map count l) == 0).
  { unfold mu, average. rewrite map_length. fold B. field. lra. }
  rewrite E. unfold variance. fold mu.
  assert (V : average (map (fun x => (x - mu) * (x - mu)) (map count l)) == sqdev mu l / B).
  { unfold average. rewrite !map_length. fold B. assert (X : forall w, qsum (map (fun x => (x - w) * (x - w)) (map count l)) == sqdev w l).
    { clear. intros w. unfold sqdev, qsum. induction l as [|c l IH]; cbn [map fold_right]; [reflexivity|]. rewrite IH. ring. }
    rewrite X. reflexivity. }
  rewrite V. field. lra.
Qed.

Lemma qsum_counts l : qsum (map count l) == inject_Z (Z.of_N (fold_right N.add 0%N l)).
Proof.
  unfold qsum. induction l as [|c l IH]; cbn [map fold_right]; [reflexivity|]. rewrite IH. unfold count.
  rewrite <- inject_Z_plus. rewrite N2Z.inj_add. reflexivity.
Qed.

Lemma sigma_close fuse fm m e css B : is fm m -> grid (-90) m -> 0 <= m /\ m <= 2 ^ 66 ->
  Forall (fun l => Forall small l /\ length l = e) css -> B = Z.of_nat (length css * e) -> (0 < B <= 2 ^ 32)%Z ->
  exists s, is (fsqrt (fdiv (fold_left (fun sos l => fadd sos (fold_left (fun ttl ct => let d := fsub fm (float_of (Z.of_N ct)) in fmuladd fuse d d ttl) l (Fin 0))) css (Fin 0)) (float_of B))) s /\
    0 <= s /\ within (6 + e + length css) (s * s) (sqdev m (concat css) / inject_Z B).
Proof.
  intros Fm Gm Bm F EB HB.
  assert (Le : (e <= Z.to_nat B)%nat /\ (length css <= Z.to_nat B)%nat).
  { rewrite EB, Nat2Z.id. assert (X : (0 < length css * e)%nat) by (apply Nat2Z.inj_lt; rewrite <- EB; apply HB). clear -X.
    destruct (length css), e; cbn [Nat.mul] in X; try lia; try nia. }
  assert (KB : (Z.of_nat (10 + e + length css) < 2 ^ 52)%Z).
  { change (2 ^ 52)%Z with 4503599627370496%Z. change (2 ^ 32)%Z with 4294967296%Z in HB. clear -Le HB. lia. }
  destruct (shards_loop fuse fm m Fm Gm Bm e css F (Fin 0) 0 []) as (t & It & Wt); [apply is_fin|apply within_refl; apply sqdev_nonneg|constructor|cbn [length]; lia|cbn [length]; lia|].
  cbn [length app Nat.add] in Wt.
  assert (Len : forall x, Forall (fun l => Forall small l /\ length l = e) x -> length (concat x) = (length x * e)%nat).
  { induction 1 as [|y x [_ Y] Fx IHx]; [reflexivity|]. cbn [concat length]. rewrite app_length, IHx, Y. reflexivity. }
  assert (Sm : forall x, Forall (fun l => Forall small l /\ length l = e) x -> Forall small (concat x)).
  { induction 1 as [|y x [Y _] Fx IHx]; [constructor|]. cbn [concat]. apply Forall_app. auto. }
  assert (RS : range (-180) 166 (sqdev m (concat css))) by (apply sqdev_range; [exact Gm|exact Bm|apply Sm, F|rewrite (Len _ F); lia]).
  pose proof (sqdev_nonneg m (concat css)) as S0. set (S := sqdev m (concat css)) in *.
  change (Datatypes.S (Datatypes.S (Datatypes.S (e + length css)))) with (3 + (e + length css))%nat in Wt.
  assert (Rt : range (-181) 167 t) by (eapply (range_within _ (-180) 166); [|exact RS|exact Wt]; lia).
  pose proof (Q_of_Z_pos B ltac:(lia)) as PB. pose proof (Q_of_Z_le B 32 ltac:(lia) ltac:(lia)) as LB.
  assert (IB : is (float_of B) (inject_Z B)) by (apply round64_Z; change (2 ^ 53)%Z with 9007199254740992%Z; change (2 ^ 32)%Z with 4294967296%Z in HB; lia).
  assert (Rq : range (-213) 167 (t / inject_Z B)).
  { destruct Rt as [E | [R1 R2]]; [left; rewrite E; unfold Qdiv; ring|right]. split.
    - apply Qle_shift_div_l; [exact PB|]. eapply Qle_trans; [|exact R1].
      apply Qle_trans with (2 ^ (-213) * 2 ^ 32); [apply Qmult_le_l; [apply two_pos|exact LB]|]. rewrite <- two_plus. apply two_mono. lia.
    - apply Qle_shift_div_r; [exact PB|]. eapply Qle_trans; [exact R2|]. pose proof (two_pos 167).
      assert (1 <= inject_Z B) by (change 1 with (inject_Z 1); rewrite <- Zle_Qle; lia). nra. }
  destruct (fdiv_close _ _ t (inject_Z B) It IB) as (q & Iq & Cq); [lra|eapply range_normal; [| |exact Rq]; lia|].
  assert (Wq : within (4 + (e + length css)) q (S / inject_Z B)).
  { change (4 + (e + length css))%nat with (1 + (3 + (e + length css)))%nat.
    assert (SB : 0 <= S / inject_Z B) by (apply Qle_shift_div_l; [exact PB|lra]).
    apply within_trans with (t / inject_Z B); [exact SB|apply within_close; [eapply range_nonneg, Rq|exact Cq]|].
    apply within_div; [exact PB|exact Wt]. }
  assert (SB : 0 <= S / inject_Z B) by (apply Qle_shift_div_l; [exact PB|lra]).
  assert (Rq' : range (-214) 168 q).
  { eapply (range_within 1 (-213) 167); [lia|exact Rq|]. apply within_close; [eapply range_nonneg, Rq|exact Cq]. }
  destruct Rq' as [E | [R1 R2]].
  - exists 0. split; [apply fsqrt_zero; exact (is_eq _ _ _ E Iq)|]. split; [lra|].
    assert (E0 : S / inject_Z B == 0).
    { destruct Wq as [W _]. rewrite E in W. pose proof (lo_pos (4 + (e + length css))). set (w := S / inject_Z B) in *. clearbody w.
      apply Qle_antisym; [|exact SB]. apply Qnot_lt_le. intros C. nra. }
    rewrite E0. apply within_refl. lra.
  - destruct (fsqrt_close _ q Iq) as (s & Is & Hs & W1 & W2).
    + eapply Qle_trans; [|exact R1]. apply two_mono. lia.
    + eapply Qle_lt_trans; [exact R2|]. apply Qlt_le_trans with (2 ^ 169); [reflexivity|apply two_mono; lia].
    + exists s. split; [exact Is|]. split; [exact Hs|].
      replace (6 + e + length css)%nat with (2 + (4 + (e + length css)))%nat by lia.
      apply within_trans with q; [exact SB| |exact Wq]. unfold within, lo, hi. cbn [pow]. rewrite !Qmult_1_r. split; assumption.
Qed.

(** * Constants *)

Lemma mean_bound m x : 0 <= x -> within 2 m x -> Qabs (m - x) <= 2 ^ (-51) * x.
Proof.
  intros H [W1 W2]. apply Qabs_Qle_condition. unfold lo, hi in *. cbn [pow] in W1, W2.
  assert (U : 2 ^ (-51) == 4 * unit) by (vm_compute; reflexivity). rewrite U. pose proof unit_pos. pose proof unit_small.
  set (u := unit) in *. clearbody u. split; nra.
Qed.

Lemma sigma_bound k y v : (Z.of_nat k <= 2 ^ 17 + 6)%Z -> 0 <= v -> within k y v ->
  (1 - 2 ^ (-35)) * v <= y /\ y <= (1 + 2 ^ (-35)) * v.
Proof.
  intros K V [W1 W2].
  pose proof (lo_bernoulli k) as L. pose proof (hi_bernoulli k) as H. pose proof (hi_pos k).
  assert (Lk : inject_Z (Z.of_nat k) * unit <= 2 ^ (-35) * (3 # 4)).
  { apply Qle_trans with (inject_Z (2 ^ 17 + 6) * unit); [apply Qmult_le_r; [apply unit_pos|rewrite <- Zle_Qle; exact K]|]. vm_compute. discriminate. }
  assert (P : 0 < 2 ^ (-35)) by apply two_pos. assert (P' : 2 ^ (-35) <= 1 # 4) by (vm_compute; discriminate).
  set (x := inject_Z (Z.of_nat k) * unit) in *. set (d := 2 ^ (-35)) in *. set (h := hi k) in *. set (l := lo k) in *.
  clearbody x d h l. split.
  - apply Qle_trans with (l * v); [|exact W1]. apply Qmult_le_compat_r; [lra|exact V].
  - apply Qle_trans with (h * v); [exact W2|]. apply Qmult_le_compat_r; [|exact V].
    assert (h * (1 - d * (3 # 4)) <= 1) by nra. apply Qnot_lt_le. intros C. nra.
Qed.
