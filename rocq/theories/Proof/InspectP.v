(** The shortest decimal number for a float64. *)
From Coq Require Import QArith Qround Qabs Qpower Lqa Lia ZArith.
From Verif Require Import Model.Base Model.Float Model.Inspect Proof.FloatP Proof.RoundP Spec.Double.
Local Open Scope Q_scope.

Notation ten := (inject_Z 10).
Lemma ten_pos e : 0 < ten ^ e.
Proof. apply Qpower_0_lt. reflexivity. Qed.
Lemma ten_plus a b : ten ^ (a + b) == ten ^ a * ten ^ b.
Proof. apply Qpower_plus. discriminate. Qed.
Lemma ten_Z n : (0 <= n)%Z -> inject_Z (10 ^ n) == ten ^ n.
Proof. intros H. apply Zpower_Qpower. exact H. Qed.
Lemma ten_mono a b : (a <= b)%Z -> ten ^ a <= ten ^ b.
Proof. intros H. apply Qpower_le_compat_l; [exact H|discriminate]. Qed.
Lemma ten_mono_inv a b : ten ^ a < ten ^ b -> (a < b)%Z.
Proof. intros H. destruct (Z.lt_ge_cases a b) as [L | L]; [exact L|]. exfalso. pose proof (ten_mono b a L). lra. Qed.

Lemma len10_spec fuel : forall n, (0 < n < 2 ^ (Z.of_nat fuel + 1))%Z ->
  (1 <= len10 fuel n /\ 10 ^ (len10 fuel n - 1) <= n < 10 ^ len10 fuel n)%Z.
Proof.
  induction fuel as [|k IH]; intros n [H1 H2]; cbn [len10].
  - change (2 ^ (Z.of_nat 0 + 1))%Z with 2%Z in H2. cbn. lia.
  - destruct (Z.ltb_spec n 10) as [L|L]; [cbn; lia|].
    assert (Hd : (0 < n / 10 < 2 ^ (Z.of_nat k + 1))%Z).
    { split; [apply Z.div_str_pos; lia|]. apply Z.div_lt_upper_bound; [lia|]. replace (Z.of_nat (S k) + 1)%Z with (Z.succ (Z.of_nat k + 1)) in H2 by lia.
      rewrite Z.pow_succ_r in H2 by lia. lia. }
    destruct (IH _ Hd) as (A & B & C). set (l := len10 k (n / 10)) in *. split; [lia|].
    replace (1 + l - 1)%Z with (Z.succ (l - 1)) by lia. replace (1 + l)%Z with (Z.succ l) by lia. rewrite !Z.pow_succ_r by lia.
    pose proof (Z.div_mod n 10 ltac:(lia)). pose proof (Z.mod_pos_bound n 10 ltac:(lia)). lia.
Qed.
Lemma qlog10_spec x : 0 < x -> ten ^ (qlog10 x) <= x /\ x < ten ^ (qlog10 x + 1).
Proof.
  destruct x as [n d]. intros H. unfold qlog10. cbn [Qnum Qden].
  assert (Hn : (0 < n)%Z) by (unfold Qlt in H; cbn in H; lia).
  assert (Lg : forall z, (0 < z)%Z -> (0 < z < 2 ^ (Z.of_nat (Z.to_nat (Z.log2 z)) + 1))%Z).
  { intros z Hz. rewrite Z2Nat.id by apply Z.log2_nonneg. pose proof (Z.log2_spec z Hz). split; [exact Hz|]. rewrite Z.add_1_r. tauto. }
  destruct (len10_spec _ n (Lg n Hn)) as (A0 & N1 & N2). destruct (len10_spec _ (Zpos d) (Lg (Zpos d) eq_refl)) as (B0 & D1 & D2).
  set (a := len10 _ n) in *. set (b := len10 _ (Zpos d)) in *. clearbody a b.
  assert (Ex : n # d == inject_Z n / inject_Z (Zpos d)) by apply Qmake_Qdiv.
  assert (Pd : 0 < inject_Z (Zpos d)) by reflexivity.
  assert (N1' : ten ^ (a - 1) <= inject_Z n) by (rewrite <- ten_Z by lia; rewrite <- Zle_Qle; exact N1).
  assert (N2' : inject_Z n < ten ^ a) by (rewrite <- ten_Z by lia; rewrite <- Zlt_Qlt; exact N2).
  assert (D1' : ten ^ (b - 1) <= inject_Z (Zpos d)) by (rewrite <- ten_Z by lia; rewrite <- Zle_Qle; exact D1).
  assert (D2' : inject_Z (Zpos d) < ten ^ b) by (rewrite <- ten_Z by lia; rewrite <- Zlt_Qlt; exact D2).
  assert (Up : n # d < ten ^ (a - b + 1)).
  { rewrite Ex. apply Qlt_shift_div_r; [exact Pd|]. eapply Qlt_le_trans; [exact N2'|].
    replace a with (a - b + 1 + (b - 1))%Z at 1 by lia. rewrite (ten_plus (a - b + 1) (b - 1)).
    apply Qmult_le_l; [apply ten_pos|exact D1']. }
  assert (Lo : ten ^ (a - b - 1) < n # d).
  { rewrite Ex. apply Qlt_shift_div_l; [exact Pd|]. eapply Qlt_le_trans; [|exact N1'].
    replace (a - 1)%Z with (a - b - 1 + b)%Z by lia. rewrite (ten_plus (a - b - 1) b).
    apply Qmult_lt_l; [apply ten_pos|exact D2']. }
  destruct (Qle_bool (ten ^ (a - b)) (n # d)) eqn:E.
  - apply Qle_bool_iff in E. split; [exact E|exact Up].
  - assert (~ ten ^ (a - b) <= n # d) by (intros C; apply Qle_bool_iff in C; congruence).
    split; [apply Qlt_le_weak; exact Lo|]. replace (a - b - 1 + 1)%Z with (a - b)%Z by lia. lra.
Qed.

Lemma rounds_to_iff d x : rounds_to d x = true <-> is (round64 d) x.
Proof.
  unfold rounds_to, is. split.
  - destruct (round64 d) as [y| |]; try discriminate. intros E. apply Qeq_bool_iff in E. exists y. auto.
  - intros (z & -> & E). apply Qeq_bool_iff. exact E.
Qed.
(** Rounding keeps the order. *)
Lemma rounded_mono a b y z : rounded a y -> rounded b z -> Qabs a < 2 ^ 1024 - 2 ^ 970 -> a <= b -> y <= z.
Proof.
  intros Ra Rb Fa L. destruct (Qlt_le_dec z y) as [H|H]; [exfalso|exact H].
  pose proof (proj2 Ra z (proj1 Rb) ltac:(lra)) as A. pose proof (proj2 Rb y (proj1 Ra) ltac:(lra)) as B.
  assert (A' : Qabs (y - a) <= Qabs (z - a)) by (destruct A as [A | [A _]]; lra).
  assert (B' : Qabs (z - b) <= Qabs (y - b)) by (destruct B as [B | [B _]]; lra). clear A B.
  assert (Ma : y + z <= 2 * a).
  { destruct (Qlt_le_dec (z - a) 0) as [S|S]; [rewrite (Qabs_neg (z - a)) in A' by lra|rewrite (Qabs_pos (z - a)), (Qabs_pos (y - a)) in A' by lra; lra].
    destruct (Qlt_le_dec (y - a) 0) as [S'|S']; [lra|]. rewrite (Qabs_pos (y - a)) in A' by lra. lra. }
  assert (Mb : 2 * b <= y + z).
  { destruct (Qlt_le_dec 0 (y - b)) as [S|S]; [rewrite (Qabs_pos (y - b)) in B' by lra|rewrite (Qabs_neg (z - b)), (Qabs_neg (y - b)) in B' by lra; lra].
    destruct (Qlt_le_dec 0 (z - b)) as [S'|S']; [lra|]. rewrite (Qabs_neg (z - b)) in B' by lra. lra. }
  assert (E : a == b) by lra. rewrite <- E in Rb.
  destruct (round64_rounded a Fa) as (w & _ & _ & U). rewrite (U y Ra), (U z Rb) in H. lra.
Qed.
Lemma between a b c x : a <= b <= c -> is (round64 a) x -> is (round64 c) x -> is (round64 b) x.
Proof.
  intros [L1 L2] A C. apply round64_is in A, C. destruct A as [Fa Ra], C as [Fc Rc].
  assert (Fb : Qabs b < 2 ^ 1024 - 2 ^ 970).
  { destruct (Qlt_le_dec b 0) as [S|S].
    - rewrite Qabs_neg by lra. rewrite Qabs_neg in Fa by lra. lra.
    - rewrite Qabs_pos by lra. rewrite Qabs_pos in Fc by lra. lra. }
  destruct (round64_rounded b Fb) as (w & W & Rb & _).
  pose proof (rounded_mono a b x w Ra Rb Fa L1). pose proof (rounded_mono b c w x Rb Rc Fb L2).
  assert (E : w == x) by lra. rewrite <- E. exact W.
Qed.

Section Shortest.
  Variable x : Q.
  Hypothesis Px : 0 < x.
  Hypothesis Dx : double x.
  Definition at_ (d e : Z) : Q := inject_Z d * ten ^ e.
  Lemma at_mono d d' e : (d <= d')%Z -> at_ d e <= at_ d' e.
  Proof. intros L. apply Qmult_le_r; [apply ten_pos|]. rewrite <- Zle_Qle. exact L. Qed.
  Lemma at_floor e : at_ (Qfloor (x / ten ^ e)) e <= x /\ x < at_ (Qfloor (x / ten ^ e) + 1) e.
  Proof.
    pose proof (ten_pos e) as P. assert (E : x == x / ten ^ e * ten ^ e) by (field; lra). unfold at_. split.
    - rewrite E at 2. apply Qmult_le_r; [exact P|apply Qfloor_le].
    - rewrite E at 1. apply Qmult_lt_r; [exact P|apply Qlt_floor].
  Qed.
  Lemma level e d : is (round64 (at_ d e)) x ->
    ((d <= Qfloor (x / ten ^ e))%Z -> is (round64 (at_ (Qfloor (x / ten ^ e)) e)) x) /\
    ((Qfloor (x / ten ^ e) < d)%Z -> is (round64 (at_ (Qfloor (x / ten ^ e) + 1) e)) x).
  Proof.
    intros H. pose proof (at_floor e) as [A B]. pose proof (double_fixed x Dx) as X. split; intros L.
    - apply (between (at_ d e) _ x); [|exact H|exact X]. split; [apply at_mono; exact L|exact A].
    - apply (between x _ (at_ d e)); [|exact X|exact H]. split; [lra|apply at_mono; lia].
  Qed.
  Lemma bottom : exists n, x == at_ n (-1074).
  Proof.
    destruct Dx as (m & e & E & _ & R). exists (m * (2 ^ (e + 1074) * 5 ^ 1074))%Z. unfold at_. rewrite E, !inject_Z_mult, two_Z by lia.
    rewrite Zpower_Qpower by lia. change ten with (2 * inject_Z 5). rewrite Qmult_power, two_plus. 
    assert (A : 2 ^ 1074 * 2 ^ (-1074) == 1) by (rewrite <- two_plus; reflexivity).
    assert (B : inject_Z 5 ^ 1074 * inject_Z 5 ^ (-1074) == 1) by (rewrite <- Qpower_plus by discriminate; reflexivity).
    setoid_replace (inject_Z m * (2 ^ e * 2 ^ 1074 * inject_Z 5 ^ 1074) * (2 ^ (-1074) * inject_Z 5 ^ (-1074)))
      with (inject_Z m * 2 ^ e * (2 ^ 1074 * 2 ^ (-1074)) * (inject_Z 5 ^ 1074 * inject_Z 5 ^ (-1074))) by ring.
    rewrite A, B. ring.
  Qed.
  Lemma zero_no : ~ is (round64 (at_ 0 0)) x.
  Proof. intros (z & E & Z). vm_compute in E. injection E as <-. lra. Qed.

  Definition found (d e : Z) : Prop :=
    (0 < d)%Z /\ (-1074 <= e)%Z /\ is (round64 (at_ d e)) x /\ at_ d e <= x + ten ^ e /\
    forall d', is (round64 (at_ d' e)) x -> Qabs (at_ d e - x) <= Qabs (at_ d' e - x).
  Lemma shortest_loop_spec fuel : forall e, (-1074 <= e)%Z -> (e + 1074 < Z.of_nat fuel)%Z ->
    let '(d, e') := shortest_loop fuel x e in
    found d e' /\ (e' <= e)%Z /\ forall d' g, (e' < g <= e)%Z -> ~ is (round64 (at_ d' g)) x.
  Proof.
    induction fuel as [|k IH]; intros e H1 H2; [lia|]. cbn [shortest_loop]. set (y := x / ten ^ e). set (f := Qfloor y).
    change (inject_Z f * ten ^ e) with (at_ f e). change (inject_Z (f + 1) * ten ^ e) with (at_ (f + 1) e).
    pose proof (at_floor e) as [A B]. fold y f in A, B. pose proof (ten_pos e) as Pe.
    assert (B' : at_ (f + 1) e == at_ f e + ten ^ e) by (unfold at_; rewrite inject_Z_plus; change (inject_Z 1) with 1; ring).
    assert (F0 : (0 <= f)%Z).
    { unfold f, y. change 0%Z with (Qfloor 0). apply Qfloor_resp_le. apply Qle_shift_div_l; [exact Pe|]. lra. }
    assert (Fp : is (round64 (at_ f e)) x -> (0 < f)%Z).
    { intros R. destruct (Z.eq_dec f 0) as [E|E]; [exfalso|lia]. rewrite E in R. apply zero_no. revert R. apply round64_is_proper; unfold at_; [ring|reflexivity]. }
    assert (Lv : forall d', is (round64 (at_ d' e)) x -> (d' <= f)%Z /\ is (round64 (at_ f e)) x \/ (f + 1 <= d')%Z /\ is (round64 (at_ (f + 1) e)) x).
    { intros d' R. destruct (level e d' R) as [P Q]. fold y f in P, Q. destruct (Z.le_gt_cases d' f) as [L|L]; [left; auto|right; split; [lia|auto]]. }
    assert (Near : forall d', (d' <= f)%Z /\ Qabs (at_ f e - x) <= Qabs (at_ d' e - x) \/ (f + 1 <= d')%Z /\ Qabs (at_ (f + 1) e - x) <= Qabs (at_ d' e - x)).
    { intros d'. destruct (Z.le_gt_cases d' f) as [L|L]; [left|right]; (split; [lia|]).
      - pose proof (at_mono d' f e L). rewrite (Qabs_neg (at_ f e - x)), (Qabs_neg (at_ d' e - x)) by lra. lra.
      - pose proof (at_mono (f + 1) d' e ltac:(lia)). rewrite (Qabs_pos (at_ (f + 1) e - x)), (Qabs_pos (at_ d' e - x)) by lra. lra. }
    destruct (rounds_to (at_ f e) x) eqn:Dn; [apply rounds_to_iff in Dn|]; (destruct (rounds_to (at_ (f + 1) e) x) eqn:Up; [apply rounds_to_iff in Up|]); cbn [andb].
    - assert (Mc : let n := nearest f (y ?= inject_Z f + (1 # 2)) in (n = f \/ n = f + 1)%Z /\ Qabs (at_ n e - x) <= Qabs (at_ f e - x) /\ Qabs (at_ n e - x) <= Qabs (at_ (f + 1) e - x)).
      { assert (Ey : x == y * ten ^ e) by (unfold y; field; lra).
        assert (Sc : forall n, Qabs (at_ n e - x) == Qabs (inject_Z n - y) * ten ^ e).
        { intros n. rewrite Ey at 1. unfold at_. setoid_replace (inject_Z n * ten ^ e - y * ten ^ e) with ((inject_Z n - y) * ten ^ e) by ring.
          rewrite Qabs_Qmult, (Qabs_pos (ten ^ e)) by lra. reflexivity. }
        intros n. split; [unfold n, nearest; destruct (y ?= _); [destruct (Z.even f)| |]; auto|]. rewrite !Sc.
        assert (Ni : forall j, Qabs (inject_Z n - y) <= Qabs (inject_Z j - y)).
        { intros j. destruct (Z.eq_dec j n) as [->|N]; [apply Qle_refl|]. destruct (nearest_int y j N) as [L | [L _]]; fold f in L; fold n in L; lra. }
        split; (apply Qmult_le_r; [exact Pe|apply Ni]). }
      set (n := nearest f _) in *. cbv zeta in Mc. destruct Mc as (Mn & M1 & M2). split; [|split; [lia|intros; lia]].
      split; [specialize (Fp Dn); lia|]. split; [exact H1|]. split; [destruct Mn as [-> | ->]; assumption|]. split.
      + destruct Mn as [-> | ->]; lra.
      + intros d' R. destruct (Near d') as [[_ L] | [_ L]]; lra.
    - split; [|split; [lia|intros; lia]]. split; [exact (Fp Dn)|]. split; [exact H1|]. split; [exact Dn|]. split; [lra|].
      intros d' R. destruct (Lv d' R) as [[L _] | [_ C]]; [|apply rounds_to_iff in C; congruence]. destruct (Near d') as [[_ N] | [N _]]; [exact N|lia].
    - split; [|split; [lia|intros; lia]]. split; [lia|]. split; [exact H1|]. split; [exact Up|]. split; [lra|].
      intros d' R. destruct (Lv d' R) as [[_ C] | [L _]]; [apply rounds_to_iff in C; congruence|]. destruct (Near d') as [[N _] | [_ N]]; [lia|exact N].
    - assert (No : forall d', ~ is (round64 (at_ d' e)) x).
      { intros d' R. destruct (Lv d' R) as [[_ C] | [_ C]]; apply rounds_to_iff in C; congruence. }
      destruct (Z.eq_dec e (-1074)) as [E|E].
      + exfalso. destruct bottom as (n & En). apply (No n). rewrite E. pose proof (double_fixed x Dx) as X. revert X. apply round64_is_proper; [symmetry; exact En|reflexivity].
      + specialize (IH (e - 1)%Z ltac:(lia) ltac:(lia)). destruct (shortest_loop k x (e - 1)) as [d e']. destruct IH as (Fd & Le & Nb).
        split; [exact Fd|]. split; [lia|]. intros d' g Hg. destruct (Z.eq_dec g e) as [->|Ng]; [apply No|apply Nb; lia].
  Qed.

  Lemma shortest_spec : let '(d, e) := shortest x in found d e /\ (e <= 309)%Z /\
    forall d' g, is (round64 (at_ d' g)) x -> (g <= e)%Z.
  Proof.
    destruct (qlog10_spec x Px) as [L U]. pose proof (double_bound x Dx) as Bx. rewrite Qabs_pos in Bx by lra.
    assert (Hi : (qlog10 x < 309)%Z). { apply ten_mono_inv. eapply Qle_lt_trans; [exact L|]. eapply Qlt_trans; [exact Bx|]. reflexivity. }
    assert (Lo : (-1074 < qlog10 x + 1)%Z).
    { apply ten_mono_inv. eapply Qle_lt_trans; [|exact U]. destruct bottom as (n & En). rewrite En. unfold at_.
      assert (0 < n)%Z. { rewrite Zlt_Qlt. change (inject_Z 0) with 0. rewrite En in Px. unfold at_ in Px. pose proof (ten_pos (-1074)). apply (Qmult_lt_r 0 (inject_Z n) (ten ^ (-1074))); lra. }
      rewrite <- (Qmult_1_l (ten ^ (-1074))) at 1. apply Qmult_le_r; [apply ten_pos|]. change 1 with (inject_Z 1). rewrite <- Zle_Qle. lia. }
    pose proof (shortest_loop_spec 1400 (qlog10 x + 1) ltac:(lia) ltac:(lia)) as S. unfold shortest.
    destruct (shortest_loop 1400 x (qlog10 x + 1)) as [d e]. destruct S as (Fd & Le & Nb). split; [exact Fd|]. split; [lia|].
    intros d' g R. destruct (Z.le_gt_cases g e) as [G|G]; [exact G|exfalso].
    destruct (Z.le_gt_cases g (qlog10 x + 1)) as [G'|G']; [exact (Nb d' g ltac:(lia) R)|].
    (* A power of two between them would be rounded to x. *)
    set (e0 := (qlog10 x + 1)%Z) in *. set (T := ten * ten ^ e0).
    assert (P0 := ten_pos e0). assert (PT : 0 < T) by (apply Qmult_lt_0_compat; [reflexivity|exact P0]).
    assert (ET : T == ten ^ (e0 + 1)) by (unfold T; rewrite ten_plus; change (ten ^ 1) with ten; ring).
    assert (D0 : (0 < d')%Z).
    { destruct (Z.lt_ge_cases 0 d') as [L'|L']; [exact L'|exfalso]. pose proof (ten_pos g) as Pg.
      assert (LQ : at_ d' g <= at_ 0 0). { unfold at_. change (inject_Z 0 * ten ^ 0) with 0. assert (inject_Z d' <= 0) by (change 0 with (inject_Z 0); rewrite <- Zle_Qle; exact L').
        setoid_replace 0 with (0 * ten ^ g) by ring. apply Qmult_le_r; [exact Pg|exact H]. }
      apply zero_no. apply (between (at_ d' g) _ x); [|exact R|exact (double_fixed x Dx)]. split; [exact LQ|]. change (at_ 0 0) with 0. lra. }
    assert (LT : T <= at_ d' g).
    { rewrite ET. unfold at_. apply Qle_trans with (1 * ten ^ g); [rewrite Qmult_1_l; apply ten_mono; lia|]. apply Qmult_le_r; [apply ten_pos|]. change 1 with (inject_Z 1). rewrite <- Zle_Qle. lia. }
    destruct (qlog2_spec T PT) as [T1 T2]. set (j := qlog2 T) in *.
    assert (Xj : x < 2 ^ j). { rewrite two_succ in T2. unfold T in T2. change (ten * ten ^ e0) with (10 * ten ^ e0) in T2. lra. }
    assert (Dj : double (2 ^ j)).
    { assert (J1 : (-1074 <= j)%Z).
      { assert (2 ^ (-1074) < 2 ^ j); [|apply two_mono_inv in H; lia]. eapply Qle_lt_trans; [|exact Xj].
        destruct Dx as (m & q & Em & _ & Rq). rewrite Em. assert (0 < m)%Z. { rewrite Zlt_Qlt. change (inject_Z 0) with 0. rewrite Em in Px. pose proof (two_pos q). apply (Qmult_lt_r 0 (inject_Z m) (2 ^ q)); lra. }
        apply Qle_trans with (1 * 2 ^ q); [rewrite Qmult_1_l; apply two_mono; lia|]. apply Qmult_le_r; [apply two_pos|]. change 1 with (inject_Z 1). rewrite <- Zle_Qle. lia. }
      assert (J2 : (j < 1024)%Z).
      { apply two_mono_inv. apply round64_is in R. destruct R as [R _]. rewrite Qabs_pos in R by lra. assert (0 < 2 ^ 970) by apply two_pos. lra. }
      destruct (Z.le_gt_cases j 971) as [J3|J3].
      - exists 1%Z, j. split; [change (inject_Z 1) with 1; ring|]. lia.
      - exists (2 ^ 52)%Z, (j - 52)%Z. split; [rewrite two_Z, <- two_plus by lia; replace (52 + (j - 52))%Z with j by lia; reflexivity|]. lia. }
    assert (Rj : is (round64 (2 ^ j)) x). { apply (between x _ (at_ d' g)); [|exact (double_fixed x Dx)|exact R]. split; lra. }
    pose proof (is_fun _ _ _ Rj (double_fixed _ Dj)). lra.
  Qed.
End Shortest.
