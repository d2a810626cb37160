(** The rounding of Model/Float is the one of IEEE 754: the nearest number, ties to even. *)
From Coq Require Import QArith Qround Qabs Qpower Lqa Lia ZArith.
From Verif Require Import Model.Base Model.Float Proof.FloatP Spec.Double.
Local Open Scope Q_scope.

#[global] Instance double_proper : Proper (Qeq ==> iff) double.
Proof. intros x y E. unfold double. split; intros (m & e & H & R); exists m, e; (split; [rewrite <- H; lra|exact R]). Qed.
#[global] Instance even_double_proper : Proper (Qeq ==> iff) even_double.
Proof. intros x y E. unfold even_double. split; intros (m & e & H & R); exists m, e; (split; [rewrite <- H; lra|exact R]). Qed.
#[global] Instance rounded_proper : Proper (Qeq ==> Qeq ==> iff) rounded.
Proof.
  intros x x' Ex y y' Ey. unfold rounded. rewrite Ey. split; intros [D H]; (split; [exact D|]); intros z Dz Nz.
  - rewrite <- Ex, <- Ey. rewrite <- Ey in Nz. exact (H z Dz Nz).
  - rewrite Ex, Ey. rewrite Ey in Nz. exact (H z Dz Nz).
Qed.

Lemma double_opp x : double x -> double (- x).
Proof. intros (m & e & H & A & B). exists (- m)%Z, e. rewrite Z.abs_opp. split; [rewrite inject_Z_opp, H; ring|auto]. Qed.
Lemma even_double_opp x : even_double x -> even_double (- x).
Proof.
  intros (m & e & H & A & B & C & D). exists (- m)%Z, e. rewrite Z.abs_opp, Z.even_opp. split; [rewrite inject_Z_opp, H; ring|auto].
Qed.
Lemma rounded_opp x y : rounded x y -> rounded (- x) (- y).
Proof.
  intros [D H]. split; [exact (double_opp _ D)|]. intros z Dz Nz.
  destruct (H (- z) (double_opp _ Dz)) as [L | [L V]]; [intros E; apply Nz; rewrite <- E; ring| |].
  - left. rewrite <- (Qabs_opp (- y - - x)), <- (Qabs_opp (z - - x)).
    setoid_replace (- (- y - - x)) with (y - x) by ring. setoid_replace (- (z - - x)) with (- z - x) by ring. exact L.
  - right. split; [|exact (even_double_opp _ V)]. rewrite <- (Qabs_opp (- y - - x)), <- (Qabs_opp (z - - x)).
    setoid_replace (- (- y - - x)) with (y - x) by ring. setoid_replace (- (z - - x)) with (- z - x) by ring. exact L.
Qed.

(** The nearest integer. *)
Lemma nearest_int y n : let m := nearest (Qfloor y) (y ?= inject_Z (Qfloor y) + (1 # 2)) in n <> m ->
  Qabs (inject_Z m - y) < Qabs (inject_Z n - y) \/
  Qabs (inject_Z m - y) == Qabs (inject_Z n - y) /\ Z.even m = true /\ Z.even n = false /\ Qabs (inject_Z n - y) == 1 # 2.
Proof.
  intros m Nm. pose proof (Qfloor_le y) as H1. pose proof (Qlt_floor y) as H2. set (f := Qfloor y) in *.
  rewrite inject_Z_plus in H2. change (inject_Z 1) with 1 in H2.
  assert (Hn : (n <= f - 1 \/ n = f \/ n = f + 1 \/ f + 2 <= n)%Z) by lia.
  assert (B : inject_Z n <= inject_Z f - 1 \/ n = f \/ n = (f + 1)%Z \/ inject_Z f + 2 <= inject_Z n).
  { destruct Hn as [L | [L | [L | L]]]; [left|auto|auto|right; right; right].
    - replace (f - 1)%Z with (f + -1)%Z in L by lia. rewrite Zle_Qle, inject_Z_plus in L. exact L.
    - rewrite Zle_Qle, inject_Z_plus in L. exact L. }
  clear Hn.
  assert (Out : Qabs (inject_Z m - y) <= 1 # 2) by exact (nearest_spec y).
  unfold m, nearest in *. destruct (Qcompare_spec y (inject_Z f + (1 # 2))) as [E | E | E].
  - destruct (Z.even f) eqn:Ev; destruct B as [B | [-> | [-> | B]]]; try congruence.
    + left. rewrite (Qabs_neg (inject_Z n - y)) by lra. rewrite (Qabs_neg (inject_Z f - y)) by lra. lra.
    + right. rewrite inject_Z_plus. change (inject_Z 1) with 1. rewrite (Qabs_neg (inject_Z f - y)), (Qabs_pos (inject_Z f + 1 - y)) by lra.
      split; [lra|]. split; [exact Ev|]. split; [|lra]. rewrite Z.even_add, Ev. reflexivity.
    + left. rewrite (Qabs_pos (inject_Z n - y)) by lra. rewrite (Qabs_neg (inject_Z f - y)) by lra. lra.
    + left. rewrite inject_Z_plus in *. change (inject_Z 1) with 1 in *. rewrite (Qabs_neg (inject_Z n - y)) by lra. rewrite (Qabs_pos (inject_Z f + 1 - y)) by lra. lra.
    + right. rewrite inject_Z_plus. change (inject_Z 1) with 1. rewrite (Qabs_neg (inject_Z f - y)), (Qabs_pos (inject_Z f + 1 - y)) by lra.
      split; [lra|]. split; [rewrite Z.even_add, Ev; reflexivity|]. split; [exact Ev|lra].
    + left. rewrite inject_Z_plus in *. change (inject_Z 1) with 1 in *. rewrite (Qabs_pos (inject_Z n - y)) by lra. rewrite (Qabs_pos (inject_Z f + 1 - y)) by lra. lra.
  - left. rewrite (Qabs_neg (inject_Z f - y)) by lra.
    destruct B as [B | [-> | [-> | B]]]; [rewrite (Qabs_neg (inject_Z n - y)) by lra; lra|congruence| |rewrite (Qabs_pos (inject_Z n - y)) by lra; lra].
    rewrite inject_Z_plus. change (inject_Z 1) with 1. rewrite (Qabs_pos (inject_Z f + 1 - y)) by lra. lra.
  - left. rewrite (inject_Z_plus f 1) in *. change (inject_Z 1) with 1 in *. rewrite (Qabs_pos (inject_Z f + 1 - y)) by lra.
    destruct B as [B | [-> | [-> | B]]]; [rewrite (Qabs_neg (inject_Z n - y)) by lra; lra| |congruence|rewrite (Qabs_pos (inject_Z n - y)) by lra; lra].
    rewrite (Qabs_neg (inject_Z f - y)) by lra. lra.
Qed.

(** The significand that rounding gives. *)
Record cut (x : Q) (m e : Z) : Prop := {
  cut_pos : 0 < x;
  cut_m : m = nearest (Qfloor (x / 2 ^ e)) (x / 2 ^ e ?= inject_Z (Qfloor (x / 2 ^ e)) + (1 # 2));
  cut_e : (-1074 <= e)%Z;
  cut_hi : x / 2 ^ e < 2 ^ 53;
  cut_lo : e = (-1074)%Z \/ 2 ^ 52 <= x / 2 ^ e
}.
Lemma cut_of x : 0 < x -> let e := last_digit (qlog2 x) in
  cut x (nearest (Qfloor (x / 2 ^ e)) (x / 2 ^ e ?= inject_Z (Qfloor (x / 2 ^ e)) + (1 # 2))) e.
Proof.
  intros H e. destruct (qlog2_spec x H) as [L U]. pose proof (two_pos e) as Pe. split; [exact H|reflexivity|unfold e, last_digit; lia| |].
  - apply Qlt_shift_div_r; [exact Pe|]. rewrite <- two_plus. eapply Qlt_le_trans; [exact U|]. apply two_mono. unfold e, last_digit. lia.
  - destruct (Z.eq_dec e (-1074)) as [E|E]; [left; exact E|right]. apply Qle_shift_div_l; [exact Pe|]. rewrite <- two_plus.
    replace (52 + e)%Z with (qlog2 x); [exact L|]. unfold e, last_digit in *. lia.
Qed.

Section Cut.
  Variables (x : Q) (m e : Z).
  Hypothesis C : cut x m e.
  Let y := x / 2 ^ e.
  Lemma cut_y : x == y * 2 ^ e.
  Proof. unfold y. pose proof (two_pos e). field. lra. Qed.
  Lemma cut_range : (0 <= m <= 2 ^ 53)%Z /\ (e = -1074 \/ 2 ^ 52 <= m)%Z.
  Proof.
    pose proof (two_pos e) as Pe. pose proof (cut_pos _ _ _ C) as Px. pose proof (cut_hi _ _ _ C) as Hi. fold y in Hi.
    assert (Y0 : 0 < y) by (apply Qlt_shift_div_l; [exact Pe|lra]).
    assert (F0 : (0 <= Qfloor y)%Z) by (change 0%Z with (Qfloor 0); apply Qfloor_resp_le; lra).
    assert (F1 : (Qfloor y < 2 ^ 53)%Z).
    { rewrite Zlt_Qlt. eapply Qle_lt_trans; [apply Qfloor_le|]. rewrite two_Z by lia. exact Hi. }
    assert (M : (Qfloor y <= m <= Qfloor y + 1)%Z).
    { rewrite (cut_m _ _ _ C). fold y. unfold nearest. destruct (y ?= _); [destruct (Z.even _)| |]; lia. }
    split; [lia|]. destruct (cut_lo _ _ _ C) as [E | L]; [left; exact E|right]. fold y in L.
    enough (2 ^ 52 <= Qfloor y)%Z by lia.
    rewrite <- (Qfloor_Z (2 ^ 52)). apply Qfloor_resp_le. rewrite two_Z by lia. exact L.
  Qed.
  Lemma cut_scale n : Qabs (inject_Z n * 2 ^ e - x) == Qabs (inject_Z n - y) * 2 ^ e.
  Proof.
    pose proof (two_pos e) as Pe. rewrite cut_y at 1. setoid_replace (inject_Z n * 2 ^ e - y * 2 ^ e) with ((inject_Z n - y) * 2 ^ e) by ring.
    rewrite Qabs_Qmult, (Qabs_pos (2 ^ e)) by lra. reflexivity.
  Qed.
  Lemma cut_near n : n <> m -> Qabs (inject_Z m * 2 ^ e - x) < Qabs (inject_Z n * 2 ^ e - x) \/
    Qabs (inject_Z m * 2 ^ e - x) == Qabs (inject_Z n * 2 ^ e - x) /\ Z.even m = true /\ Z.even n = false /\ Qabs (inject_Z n - y) == 1 # 2.
  Proof.
    intros N. rewrite !cut_scale. pose proof (cut_m _ _ _ C) as Em. fold y in Em. pose proof (nearest_int y n) as H. rewrite <- Em in H. cbv zeta in H.
    destruct (H N) as [L | (L & A)]; [left; apply Qmult_lt_r; [apply two_pos|exact L]|right].
    split; [rewrite L; reflexivity|exact A].
  Qed.
  Lemma cut_double : inject_Z m * 2 ^ e < 2 ^ 1024 -> exists m' e', (inject_Z m * 2 ^ e == inject_Z m' * 2 ^ e' /\
    0 <= m' < 2 ^ 53 /\ -1074 <= e' <= 971 /\ (Z.even m = true -> Z.even m' = true) /\ (2 ^ 52 <= m' \/ e' = -1074))%Z.
  Proof.
    intros L. destruct cut_range as [[M0 M1] M2]. pose proof (cut_e _ _ _ C) as E0.
    destruct (Z.eq_dec m (2 ^ 53)) as [Em|Em].
    - exists (2 ^ 52)%Z, (e + 1)%Z. rewrite Em in *. split; [rewrite two_succ; change (inject_Z (2 ^ 53)) with (inject_Z (2 ^ 52) * 2); ring|].
      rewrite two_Z, <- two_plus in L by lia. apply two_mono_inv in L. split; [lia|]. split; [lia|]. split; [reflexivity|left; lia].
    - exists m, e. split; [reflexivity|]. split; [lia|]. split; [|split; [auto|lia]]. split; [lia|].
      destruct M2 as [->|M2]; [lia|]. assert (2 ^ (52 + e) < 2 ^ 1024); [|apply two_mono_inv in H; lia].
      eapply Qle_lt_trans; [|exact L]. rewrite two_plus, <- two_Z by lia. pose proof (two_pos e). apply Qmult_le_r; [lra|]. rewrite <- Zle_Qle. exact M2.
  Qed.
  (** A number of the format is a multiple of 2^e, or it is less than 2^52 of them. *)
  Lemma cut_other z : double z -> (exists n, z == inject_Z n * 2 ^ e) \/ (z < 2 ^ 52 * 2 ^ e /\ 2 ^ 52 <= y).
  Proof.
    intros (n & g & Ez & Hn & G). destruct (Z.le_gt_cases e g) as [L|L].
    - left. exists (n * 2 ^ (g - e))%Z. rewrite Ez, inject_Z_mult, two_Z by lia. rewrite <- Qmult_assoc, <- two_plus. replace (g - e + e)%Z with g by lia. reflexivity.
    - right. destruct (cut_lo _ _ _ C) as [E | Lo]; [lia|]. split; [|exact Lo]. rewrite Ez.
      apply Qlt_le_trans with (2 ^ 53 * 2 ^ g).
      + apply Qmult_lt_r; [apply two_pos|]. rewrite <- two_Z by lia. rewrite <- Zlt_Qlt. lia.
      + rewrite <- !two_plus. apply two_mono. lia.
  Qed.
  Lemma cut_low : 2 ^ 52 <= y -> forall z, z < 2 ^ 52 * 2 ^ e -> Qabs (inject_Z m * 2 ^ e - x) < Qabs (z - x).
  Proof.
    intros Lo z Hz. pose proof (two_pos e) as Pe.
    assert (Hx : 2 ^ 52 * 2 ^ e <= x) by (rewrite cut_y; apply Qmult_le_r; [exact Pe|exact Lo]).
    assert (H : Qabs (inject_Z m * 2 ^ e - x) <= Qabs (inject_Z (2 ^ 52) * 2 ^ e - x)).
    { destruct (Z.eq_dec (2 ^ 52) m) as [<-|N]; [apply Qle_refl|]. destruct (cut_near _ N) as [H | [H _]]; lra. }
    eapply Qle_lt_trans; [exact H|]. rewrite two_Z by lia. rewrite (Qabs_neg (2 ^ 52 * 2 ^ e - x)), (Qabs_neg (z - x)) by lra. lra.
  Qed.
  Lemma cut_rounded : inject_Z m * 2 ^ e < 2 ^ 1024 -> rounded x (inject_Z m * 2 ^ e).
  Proof.
    intros L. destruct (cut_double L) as (m' & e' & E & R & Re & Ev & No). split.
    { exists m', e'. split; [exact E|]. split; [lia|exact Re]. }
    intros z Dz Nz. destruct (cut_other z Dz) as [(n & Ez) | [Lz Lo]].
    - assert (N : n <> m) by (intros ->; apply Nz; exact Ez). destruct (cut_near n N) as [H | (H & Em & _)]; rewrite Ez; [left; exact H|right].
      split; [exact H|]. exists m', e'. split; [exact E|]. split; [lia|]. split; [exact Re|]. split; [exact (Ev Em)|]. lia.
    - left. exact (cut_low Lo z Lz).
  Qed.
  Lemma cut_unique w : inject_Z m * 2 ^ e < 2 ^ 1024 -> rounded x w -> w == inject_Z m * 2 ^ e.
  Proof.
    intros L [Dw Hw]. destruct (Qeq_dec w (inject_Z m * 2 ^ e)) as [E|N]; [exact E|exfalso].
    destruct (Hw (inject_Z m * 2 ^ e)) as [H | [H V]]; [exact (proj1 (cut_rounded L))|intros E; apply N; lra| |].
    - destruct (proj2 (cut_rounded L) w Dw N) as [K | [K _]]; lra.
    - destruct (cut_other w Dw) as [(n & Ez) | [Lz Lo]]; [|pose proof (cut_low Lo w Lz); lra].
      assert (Nm : n <> m) by (intros ->; apply N; exact Ez). destruct (cut_near n Nm) as [K | (_ & _ & On & Hf)]; [rewrite <- Ez in K; lra|].
      destruct V as (m1 & e1 & Ew & B1 & R1 & Ev & No). pose proof (cut_e _ _ _ C) as E0.
      destruct (Z.le_gt_cases e e1) as [G|G].
      + assert (Q1 : inject_Z n * 2 ^ e == inject_Z (m1 * 2 ^ (e1 - e)) * 2 ^ e).
        { rewrite <- Ez, Ew, inject_Z_mult, two_Z by lia. rewrite <- Qmult_assoc, <- two_plus. replace (e1 - e + e)%Z with e1 by lia. reflexivity. }
        apply Qmult_inj_r in Q1; [|pose proof (two_pos e); lra]. apply (proj1 (inject_Z_injective _ _)) in Q1. rewrite Q1, Z.even_mul, Ev in On. discriminate.
      + destruct (cut_lo _ _ _ C) as [E | Lo]; [lia|]. fold y in Lo.
        assert (Hn : (2 ^ 52 <= n)%Z).
        { enough (2 ^ 52 - 1 < n)%Z by lia. rewrite Zlt_Qlt. unfold Z.sub. rewrite inject_Z_plus, two_Z by lia. change (inject_Z (Z.opp 1)) with (-1).
          assert (HQ : Qabs (inject_Z n - y) <= 1 # 2) by lra. apply Qabs_Qle_condition in HQ. lra. }
        assert (Q1 : inject_Z m1 * 2 ^ e1 == inject_Z (n * 2 ^ (e - e1)) * 2 ^ e1).
        { rewrite <- Ew, Ez, inject_Z_mult, two_Z by lia. rewrite <- Qmult_assoc, <- two_plus. replace (e - e1 + e1)%Z with e by lia. reflexivity. }
        apply Qmult_inj_r in Q1; [|pose proof (two_pos e1); lra]. apply (proj1 (inject_Z_injective _ _)) in Q1.
        assert (2 ^ 1 <= 2 ^ (e - e1))%Z by (apply Z.pow_le_mono_r; lia). rewrite Q1 in B1. nia.
  Qed.
  Lemma cut_overflow : 2 ^ 1024 <= inject_Z m * 2 ^ e <-> 2 ^ 1024 - 2 ^ 970 <= x.
  Proof.
    pose proof (two_pos e) as Pe. destruct cut_range as [[M0 M1] M2].
    assert (Nr : Qabs (inject_Z m - y) <= 1 # 2) by (rewrite (cut_m _ _ _ C); exact (nearest_spec y)). apply Qabs_Qle_condition in Nr.
    assert (Big : (972 <= e)%Z -> 2 ^ 1024 <= inject_Z m * 2 ^ e /\ 2 ^ 1024 <= x).
    { intros G. destruct M2 as [E|M2]; [lia|]. destruct (cut_lo _ _ _ C) as [E|Lo]; [lia|]. fold y in Lo.
      assert (B : 2 ^ 1024 <= 2 ^ 52 * 2 ^ e) by (rewrite <- two_plus; apply two_mono; lia). split; eapply Qle_trans; try exact B.
      - rewrite <- (two_Z 52) by lia. apply Qmult_le_r; [exact Pe|]. rewrite <- Zle_Qle. exact M2.
      - rewrite cut_y. apply Qmult_le_r; [exact Pe|exact Lo]. }
    assert (Small : (e <= 970)%Z -> inject_Z m * 2 ^ e < 2 ^ 1024 /\ x < 2 ^ 1024 - 2 ^ 970).
    { intros G. assert (B : 2 ^ 53 * 2 ^ e <= 2 ^ 1023) by (rewrite <- two_plus; apply two_mono; lia).
      assert (D : 2 ^ 1023 < 2 ^ 1024 - 2 ^ 970) by reflexivity.
      split.
      - eapply Qle_lt_trans; [|apply (Qle_lt_trans _ _ _ B); reflexivity]. rewrite <- (two_Z 53) by lia. apply Qmult_le_r; [exact Pe|]. rewrite <- Zle_Qle. exact M1.
      - rewrite cut_y. eapply Qlt_trans; [apply Qmult_lt_r; [exact Pe|exact (cut_hi _ _ _ C)]|]. eapply Qle_lt_trans; [exact B|exact D]. }
    assert (T : (e <= 970 \/ e = 971 \/ 972 <= e)%Z) by lia. destruct T as [T | [T | T]].
    - destruct (Small T). split; lra.
    - assert (P971 : 2 ^ 970 == (1 # 2) * 2 ^ 971) by reflexivity. assert (P1024 : 2 ^ 1024 == 2 ^ 53 * 2 ^ 971) by reflexivity.
      rewrite P971, P1024. rewrite cut_y. clear Big Small P971 P1024. pose proof (cut_hi _ _ _ C) as Hi. pose proof (cut_m _ _ _ C) as Em. fold y in Hi, Em.
      rewrite T in Pe |- *. setoid_replace (2 ^ 53 * 2 ^ 971 - (1 # 2) * 2 ^ 971) with ((2 ^ 53 - (1 # 2)) * 2 ^ 971) by ring. rewrite !Qmult_le_r by exact Pe.
      split; intros H; [lra|]. rewrite <- two_Z by lia. rewrite <- Zle_Qle.
      assert (Ef : Qfloor y = (2 ^ 53 - 1)%Z).
      { pose proof (Qfloor_le y) as F1. pose proof (Qlt_floor y) as F2. rewrite inject_Z_plus in F2. change (inject_Z 1) with 1 in F2.
        assert (A : inject_Z (Qfloor y) < inject_Z (2 ^ 53)) by (rewrite two_Z by lia; lra).
        assert (B : inject_Z (2 ^ 53 + -2) < inject_Z (Qfloor y)) by (rewrite inject_Z_plus, two_Z by lia; change (inject_Z (-2)) with (-2); lra).
        rewrite <- Zlt_Qlt in A, B. lia. }
      rewrite Em, Ef. unfold nearest. change (inject_Z (2 ^ 53 - 1) + (1 # 2)) with (2 ^ 53 - (1 # 2)).
      destruct (Qcompare_spec y (2 ^ 53 - (1 # 2))); [discriminate|lra|discriminate].
    - destruct (Big T). assert (0 < 2 ^ 970) by apply two_pos. split; lra.
  Qed.
End Cut.

Lemma round_pos_cut neg x : 0 < x -> exists m e, cut x m e /\ round_pos neg x = pack neg m e.
Proof. intros H. eexists _, _. split; [exact (cut_of x H)|reflexivity]. Qed.
Lemma pack_fin neg m e : inject_Z m * 2 ^ e < 2 ^ 1024 -> is (pack neg m e) (if neg then - (inject_Z m * 2 ^ e) else inject_Z m * 2 ^ e).
Proof. intros H. rewrite pack_small by exact H. eexists. split; [reflexivity|apply Qred_correct]. Qed.
Lemma pack_inf neg m e : 2 ^ 1024 <= inject_Z m * 2 ^ e -> pack neg m e = Inf neg.
Proof. intros H. unfold pack. rewrite (proj2 (Qle_bool_iff _ _) H). reflexivity. Qed.

Lemma double_0 : double 0.
Proof. exists 0%Z, 0%Z. repeat split; discriminate. Qed.
Lemma rounded_0 x : x == 0 -> rounded x 0.
Proof.
  intros E. rewrite E. split; [exact double_0|]. intros z _ Nz. left. setoid_replace (0 - 0) with 0 by ring. setoid_replace (z - 0) with z by ring.
  change (Qabs 0) with 0. destruct (Qlt_le_dec 0 (Qabs z)) as [L|L]; [exact L|]. exfalso. apply Nz. apply Qabs_Qle_condition in L. lra.
Qed.
Lemma rounded_0_inv x w : x == 0 -> rounded x w -> w == 0.
Proof.
  intros E [D H]. destruct (Qeq_dec w 0) as [W|W]; [exact W|exfalso]. specialize (H 0 double_0 ltac:(intros X; apply W; lra)). rewrite E in H.
  setoid_replace (w - 0) with w in H by ring. change (Qabs (0 - 0)) with 0 in H.
  pose proof (Qabs_nonneg w). destruct H as [H | [H _]]; [lra|]. apply W. assert (Qabs w <= 0) as A by lra. apply Qabs_Qle_condition in A. lra.
Qed.

(** The main facts: when the result is finite, and what it is. *)
Lemma cut_finite x m e : cut x m e -> x < 2 ^ 1024 - 2 ^ 970 -> inject_Z m * 2 ^ e < 2 ^ 1024.
Proof.
  intros C H. destruct (Qlt_le_dec (inject_Z m * 2 ^ e) (2 ^ 1024)) as [L|L]; [exact L|]. apply (cut_overflow _ _ _ C) in L. lra.
Qed.
Lemma round64_rounded x : Qabs x < 2 ^ 1024 - 2 ^ 970 -> exists y, is (round64 x) y /\ rounded x y /\ forall w, rounded x w -> w == y.
Proof.
  intros H. unfold round64. destruct (Qcompare_spec x 0) as [E | E | E].
  - exists 0. split; [apply is_fin|]. split; [exact (rounded_0 x E)|]. intros w. exact (rounded_0_inv x w E).
  - rewrite Qabs_neg in H by lra. destruct (round_pos_cut true (- x)) as (m & e & C & R); [lra|]. rewrite R.
    pose proof (cut_finite _ _ _ C H) as L. exists (- (inject_Z m * 2 ^ e)). split; [exact (pack_fin true m e L)|]. split.
    + pose proof (rounded_opp _ _ (cut_rounded _ _ _ C L)) as O. setoid_replace (- - x) with x in O by ring. exact O.
    + intros w W. apply rounded_opp in W. apply (cut_unique _ _ _ C _ L) in W. lra.
  - rewrite Qabs_pos in H by lra. destruct (round_pos_cut false x) as (m & e & C & R); [lra|]. rewrite R.
    pose proof (cut_finite _ _ _ C H) as L. exists (inject_Z m * 2 ^ e). split; [exact (pack_fin false m e L)|].
    split; [exact (cut_rounded _ _ _ C L)|]. intros w W. exact (cut_unique _ _ _ C _ L W).
Qed.
Lemma round64_overflows x : 2 ^ 1024 - 2 ^ 970 <= Qabs x -> round64 x = Inf (negb (Qle_bool 0 x)).
Proof.
  intros H. unfold round64. destruct (Qcompare_spec x 0) as [E | E | E].
  - exfalso. rewrite E in H. now apply H.
  - replace (Qle_bool 0 x) with false by (symmetry; apply not_true_is_false; rewrite Qle_bool_iff; lra).
    rewrite Qabs_neg in H by lra. destruct (round_pos_cut true (- x)) as (m & e & C & R); [lra|]. rewrite R. apply pack_inf, (cut_overflow _ _ _ C), H.
  - replace (Qle_bool 0 x) with true by (symmetry; rewrite Qle_bool_iff; lra).
    rewrite Qabs_pos in H by lra. destruct (round_pos_cut false x) as (m & e & C & R); [lra|]. rewrite R. apply pack_inf, (cut_overflow _ _ _ C), H.
Qed.
Lemma round64_is x y : is (round64 x) y <-> converted x y.
Proof.
  destruct (Qlt_le_dec (Qabs x) (2 ^ 1024 - 2 ^ 970)) as [L|L].
  - destruct (round64_rounded x L) as (w & W & R & U). split.
    + intros I. split; [exact L|]. rewrite (is_fun _ _ _ I W). exact R.
    + intros [_ Ry]. rewrite (U y Ry). exact W.
  - split; [|intros [C _]; lra]. rewrite (round64_overflows x L). intros (z & Z & _). discriminate Z.
Qed.
#[global] Instance round64_is_proper : Proper (Qeq ==> Qeq ==> iff) (fun x y => is (round64 x) y).
Proof. intros x x' Ex y y' Ey. rewrite !round64_is. unfold converted. rewrite Ex, Ey. reflexivity. Qed.
Lemma double_fixed x : double x -> is (round64 x) x.
Proof.
  intros (m & e & E & B & R). apply (round64_exact x m e E B ltac:(lia)). rewrite E, Qabs_Qmult, (Qabs_pos (2 ^ e)), inject_Z_abs by (pose proof (two_pos e); lra).
  apply Qlt_le_trans with (2 ^ 53 * 2 ^ e); [apply Qmult_lt_r; [apply two_pos|]; rewrite <- two_Z by lia; rewrite <- Zlt_Qlt; exact B|].
  rewrite <- two_plus. apply two_mono. lia.
Qed.
Lemma double_bound x : double x -> Qabs x < 2 ^ 1024 - 2 ^ 970.
Proof. intros D. apply double_fixed in D. apply round64_is in D. exact (proj1 D). Qed.

(** * Square roots *)
Lemma sq_le a b : 0 <= a -> a <= b -> a * a <= b * b.
Proof. intros A L. apply Qle_trans with (b * a); [apply Qmult_le_compat_r; lra|]. rewrite (Qmult_comm b a). apply Qmult_le_compat_r; lra. Qed.
Lemma sq_lt_inv a b : 0 <= b -> a * a < b * b -> a < b.
Proof. intros B L. destruct (Qlt_le_dec a b) as [H|H]; [exact H|]. pose proof (sq_le b a B H). lra. Qed.
Lemma sqrt_pos_rounded x : 0 < x -> double x -> exists y, is (sqrt_pos x) y /\ rounded_root x y.
Proof.
  intros Px Dx. unfold sqrt_pos. set (k := qlog2 x). set (h := Z.div2 k). set (e := last_digit h).
  destruct (qlog2_spec x Px) as [L U]. fold k in L, U.
  assert (Hk : (2 * h <= k <= 2 * h + 1)%Z) by (subst h; rewrite Z.div2_div; pose proof (Z.div_mod k 2 ltac:(lia)); pose proof (Z.mod_pos_bound k 2 ltac:(lia)); lia).
  assert (Pe := two_pos e). assert (Pee : 0 < 2 ^ e * 2 ^ e) by (apply Qmult_lt_0_compat; exact Pe).
  set (y := x / (2 ^ e * 2 ^ e)). assert (Ex : x == y * (2 ^ e * 2 ^ e)) by (unfold y; field; lra).
  assert (Bk : (-1074 <= k < 1024)%Z).
  { split.
    - destruct Dx as (m & g & E & B & R). enough (2 ^ (-1074) <= x) by (exact (qlog2_ge x _ Px H)).
      assert (0 < m)%Z. { rewrite Zlt_Qlt. change (inject_Z 0) with 0. rewrite E in Px. pose proof (two_pos g). apply (Qmult_lt_r 0 (inject_Z m) (2 ^ g)); lra. }
      rewrite E. apply Qle_trans with (1 * 2 ^ g); [rewrite Qmult_1_l; apply two_mono; lia|]. apply Qmult_le_compat_r; [|pose proof (two_pos g); lra].
      change 1 with (inject_Z 1). rewrite <- Zle_Qle. lia.
    - apply (qlog2_lt x _ Px). pose proof (double_bound x Dx) as B. rewrite Qabs_pos in B by lra. assert (0 < 2 ^ 970) by apply two_pos. lra. }
  assert (He : e = (h - 52)%Z) by (unfold e, last_digit; lia).
  assert (Y1 : 2 ^ 52 * 2 ^ 52 <= y).
  { apply Qle_shift_div_l; [exact Pee|]. eapply Qle_trans; [|exact L]. rewrite <- !two_plus. apply two_mono. lia. }
  assert (Y2 : y < 2 ^ 53 * 2 ^ 53).
  { apply Qlt_shift_div_r; [exact Pee|]. eapply Qlt_le_trans; [exact U|]. rewrite <- !two_plus. apply two_mono. lia. }
  set (F := Qfloor y). pose proof (Qfloor_le y) as F1. pose proof (Qlt_floor y) as F2. fold F in F1, F2.
  assert (F3 : (2 ^ 52 * 2 ^ 52 <= F)%Z). { rewrite <- (Qfloor_Z (2 ^ 52 * 2 ^ 52)). apply Qfloor_resp_le. rewrite inject_Z_mult, two_Z by lia. exact Y1. }
  assert (F4 : (F < 2 ^ 53 * 2 ^ 53)%Z). { rewrite Zlt_Qlt, inject_Z_mult, two_Z by lia. lra. }
  destruct (Z.sqrt_spec F ltac:(lia)) as [S1 S2]. set (f := Z.sqrt F) in *.
  assert (S3 : (2 ^ 52 <= f < 2 ^ 53)%Z) by nia.
  assert (Y3 : inject_Z f * inject_Z f <= y) by (rewrite <- inject_Z_mult; eapply Qle_trans; [|exact F1]; rewrite <- Zle_Qle; exact S1).
  assert (Y4 : y < (inject_Z f + 1) * (inject_Z f + 1)).
  { eapply Qlt_le_trans; [exact F2|]. change 1 with (inject_Z 1). rewrite <- inject_Z_plus, <- inject_Z_mult, <- Zle_Qle. lia. }
  set (m := nearest f (y ?= (inject_Z f + (1 # 2)) * (inject_Z f + (1 # 2)))).
  assert (Mr : (f <= m <= f + 1)%Z) by (unfold m, nearest; destruct (y ?= _); [destruct (Z.even f)| |]; lia).
  assert (Qm : 0 <= inject_Z f) by (change 0 with (inject_Z 0); rewrite <- Zle_Qle; lia).
  assert (Mc : (m = f /\ y <= (inject_Z f + (1 # 2)) * (inject_Z f + (1 # 2))) \/ (m = (f + 1)%Z /\ (inject_Z f + (1 # 2)) * (inject_Z f + (1 # 2)) <= y)).
  { unfold m, nearest. destruct (Qcompare_spec y ((inject_Z f + (1 # 2)) * (inject_Z f + (1 # 2)))); [destruct (Z.even f)|left|right]; [left|right| |]; (split; [reflexivity|lra]). }
  clearbody m.
  assert (M1 : y <= (inject_Z m + (1 # 2)) * (inject_Z m + (1 # 2))).
  { destruct Mc as [[-> Mc] | [-> Mc]]; [exact Mc|]. rewrite inject_Z_plus. change (inject_Z 1) with 1.
    eapply Qle_trans; [apply Qlt_le_weak; exact Y4|]. apply sq_le; lra. }
  assert (M2 : (inject_Z m - (1 # 2)) * (inject_Z m - (1 # 2)) <= y).
  { destruct Mc as [[-> Mc] | [-> Mc]].
    - eapply Qle_trans; [|exact Y3]. apply sq_le; [|lra]. assert (1 <= inject_Z f) by (change 1 with (inject_Z 1); rewrite <- Zle_Qle; lia). lra.
    - rewrite inject_Z_plus. change (inject_Z 1) with 1. eapply Qle_trans; [|exact Mc]. apply sq_le; lra. }
  assert (M0 : 1 <= inject_Z m) by (change 1 with (inject_Z 1); rewrite <- Zle_Qle; lia).
  assert (Ub : forall a, inject_Z m + (1 # 2) <= a -> x <= (a * 2 ^ e) * (a * 2 ^ e)).
  { intros a Ha. rewrite Ex. setoid_replace ((a * 2 ^ e) * (a * 2 ^ e)) with ((a * a) * (2 ^ e * 2 ^ e)) by ring. apply Qmult_le_r; [exact Pee|].
    eapply Qle_trans; [exact M1|]. apply sq_le; lra. }
  assert (Lb : forall a, 0 <= a -> a <= inject_Z m - (1 # 2) \/ a <= inject_Z (2 ^ 52) -> (a * 2 ^ e) * (a * 2 ^ e) <= x).
  { intros a A0 Ha. rewrite Ex. setoid_replace ((a * 2 ^ e) * (a * 2 ^ e)) with ((a * a) * (2 ^ e * 2 ^ e)) by ring. apply Qmult_le_r; [exact Pee|].
    destruct Ha as [Ha|Ha]; [eapply Qle_trans; [|exact M2]|eapply Qle_trans; [|exact Y1]]; (apply sq_le; [exact A0|exact Ha]). }
  exists (inject_Z m * 2 ^ e). split; [|split; [|split]].
  - apply (pack_fin false). apply Qle_lt_trans with (2 ^ 53 * 2 ^ e); [apply Qmult_le_r; [exact Pe|]; rewrite <- two_Z by lia; rewrite <- Zle_Qle; lia|].
    rewrite <- two_plus. apply Qle_lt_trans with (2 ^ 1000); [apply two_mono; lia|reflexivity].
  - destruct (Z.eq_dec m (2 ^ 53)) as [Em|Em].
    + exists (2 ^ 52)%Z, (e + 1)%Z. rewrite Em. split; [rewrite two_succ; change (inject_Z (2 ^ 53)) with (inject_Z (2 ^ 52) * 2); ring|]. split; [reflexivity|lia].
    + exists m, e. split; [reflexivity|]. lia.
  - apply Qmult_le_0_compat; lra.
  - intros z (n & g & Ez & Hn & G) Z0. pose proof (two_pos g) as Pg. destruct (Z.le_gt_cases e g) as [Lg|Lg].
    + set (n' := (n * 2 ^ (g - e))%Z). assert (Ez' : z == inject_Z n' * 2 ^ e).
      { unfold n'. rewrite Ez, inject_Z_mult, two_Z by lia. rewrite <- Qmult_assoc, <- two_plus. replace (g - e + e)%Z with g by lia. reflexivity. }
      assert (N0 : 0 <= inject_Z n') by (rewrite Ez' in Z0; apply (Qmult_le_r 0 (inject_Z n') (2 ^ e)); lra).
      setoid_replace ((inject_Z m * 2 ^ e + z) / 2) with ((inject_Z m + inject_Z n') / 2 * 2 ^ e) by (rewrite Ez'; field). rewrite Ez'.
      split; intros H; apply Qmult_lt_r in H; try exact Pe; rewrite <- Zlt_Qlt in H.
      * apply Ub. assert (A : inject_Z (m + 1) <= inject_Z n') by (rewrite <- Zle_Qle; lia). rewrite inject_Z_plus in A. change (inject_Z 1) with 1 in A.
        apply Qle_shift_div_l; [reflexivity|]. lra.
      * apply Lb; [apply Qle_shift_div_l; [reflexivity|]; lra|left].
        assert (A : inject_Z (n' + 1) <= inject_Z m) by (rewrite <- Zle_Qle; lia). rewrite inject_Z_plus in A. change (inject_Z 1) with 1 in A.
        apply Qle_shift_div_r; [reflexivity|]. lra.
    + assert (Hz : z < 2 ^ 52 * 2 ^ e).
      { rewrite Ez. apply Qlt_le_trans with (2 ^ 53 * 2 ^ g).
        - apply Qmult_lt_r; [exact Pg|]. rewrite <- two_Z by lia. rewrite <- Zlt_Qlt. lia.
        - rewrite <- !two_plus. apply two_mono. lia. }
      assert (Hm : 2 ^ 52 * 2 ^ e <= inject_Z m * 2 ^ e) by (apply Qmult_le_r; [exact Pe|]; rewrite <- two_Z by lia; rewrite <- Zle_Qle; lia).
      split; intros H; [lra|]. destruct (Z.eq_dec m (2 ^ 52)) as [Em|Em].
      * eapply Qle_trans; [apply (sq_le _ (inject_Z (2 ^ 52) * 2 ^ e))|apply Lb; [discriminate|right; apply Qle_refl]].
        -- apply Qle_shift_div_l; [reflexivity|]. lra.
        -- apply Qle_shift_div_r; [reflexivity|]. rewrite Em in *. lra.
      * eapply Qle_trans; [apply (sq_le _ ((inject_Z m + inject_Z (2 ^ 52)) / 2 * 2 ^ e))|apply Lb].
        -- apply Qle_shift_div_l; [reflexivity|]. lra.
        -- setoid_replace ((inject_Z m + inject_Z (2 ^ 52)) / 2 * 2 ^ e) with ((inject_Z m * 2 ^ e + inject_Z (2 ^ 52) * 2 ^ e) / 2) by field.
           change (inject_Z (2 ^ 52)) with (2 ^ 52). apply Qmult_le_compat_r; [lra|discriminate].
        -- apply Qle_shift_div_l; [reflexivity|]. change (inject_Z (2 ^ 52)) with (2 ^ 52). assert (0 < 2 ^ 52) by reflexivity. lra.
        -- left. apply Qle_shift_div_r; [reflexivity|]. assert (A : inject_Z (2 ^ 52 + 1) <= inject_Z m) by (rewrite <- Zle_Qle; lia).
           rewrite inject_Z_plus in A. change (inject_Z 1) with 1 in A. lra.
Qed.
