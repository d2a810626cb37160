(** Rounding is monotone; the threshold of the extract command. *)
From Coq Require Import QArith Qround Qabs Qpower Lqa Lia ZArith List.
From Verif Require Import Model.Base Model.Float Proof.FloatP.
Local Open Scope Q_scope.

Definition rn (y : Q) : Z := nearest (Qfloor y) (y ?= inject_Z (Qfloor y) + (1 # 2)).

Lemma rn_mono y y' : y <= y' -> (rn y <= rn y')%Z.
Proof.
  intros L. pose proof (Qfloor_resp_le _ _ L) as F. unfold rn.
  assert (B : forall f c, (f <= nearest f c <= f + 1)%Z) by (intros f c; unfold nearest; destruct c; [destruct (Z.even f)| |]; lia).
  destruct (Z.eq_dec (Qfloor y) (Qfloor y')) as [E | E].
  - rewrite <- E. unfold nearest.
    destruct (Qcompare_spec y (inject_Z (Qfloor y) + (1 # 2))), (Qcompare_spec y' (inject_Z (Qfloor y) + (1 # 2)));
      try destruct (Z.even (Qfloor y)); try lia; lra.
  - pose proof (B (Qfloor y) (y ?= inject_Z (Qfloor y) + (1 # 2))). pose proof (B (Qfloor y') (y' ?= inject_Z (Qfloor y') + (1 # 2))). lia.
Qed.

Lemma rn_Z z : rn (inject_Z z) = z.
Proof. apply nearest_exact. reflexivity. Qed.

(** The value that is packed. *)
Definition rval (x : Q) : Q := inject_Z (rn (x / 2 ^ (last_digit (qlog2 x)))) * 2 ^ (last_digit (qlog2 x)).

Lemma Qdiv_mono x y b : 0 < b -> x <= y -> x / b <= y / b.
Proof. intros P L. unfold Qdiv. apply Qmult_le_compat_r; [exact L|]. apply Qlt_le_weak, Qinv_lt_0_compat, P. Qed.

Lemma rval_mono x y : 0 < x -> x <= y -> rval x <= rval y.
Proof.
  intros P L. unfold rval. assert (P' : 0 < y) by lra.
  destruct (qlog2_spec x P) as [X1 X2]. destruct (qlog2_spec y P') as [Y1 Y2].
  set (k := qlog2 x) in *. set (l := qlog2 y) in *.
  assert (KL : (k <= l)%Z) by (assert (k < l + 1)%Z; [apply two_mono_inv; lra|lia]).
  destruct (Z.eq_dec (last_digit k) (last_digit l)) as [E | E].
  - rewrite <- E. pose proof (two_pos (last_digit k)). apply Qmult_le_compat_r; [|lra]. rewrite <- Zle_Qle. apply rn_mono, Qdiv_mono; assumption.
  - assert (KL2 : (k + 1 <= l)%Z /\ (last_digit l = l - 52)%Z /\ (last_digit k <= Z.max (k + 1) (-1074))%Z /\ (Z.max (k + 1) (-1074) <= l)%Z) by (unfold last_digit in *; lia).
    destruct KL2 as (KL1 & El & Ek & Ej).
    assert (Low : forall a j z, (a <= j)%Z -> z <= 2 ^ j -> inject_Z (rn (z / 2 ^ a)) * 2 ^ a <= 2 ^ j).
    { intros a j z A Z. pose proof (two_pos a). replace j with (j - a + a)%Z by lia. rewrite two_plus. apply Qmult_le_compat_r; [|lra].
      rewrite <- (two_Z (j - a)) by lia. rewrite <- Zle_Qle. rewrite <- (rn_Z (2 ^ (j - a))). apply rn_mono. rewrite two_Z by lia.
      apply Qle_shift_div_r; [assumption|]. rewrite <- two_plus. replace (j - a + a)%Z with j by lia. exact Z. }
    assert (High : forall a j z, (a <= j)%Z -> 2 ^ j <= z -> 2 ^ j <= inject_Z (rn (z / 2 ^ a)) * 2 ^ a).
    { intros a j z A Z. pose proof (two_pos a). replace j with (j - a + a)%Z by lia. rewrite two_plus. apply Qmult_le_compat_r; [|lra].
      rewrite <- (two_Z (j - a)) by lia. rewrite <- Zle_Qle. rewrite <- (rn_Z (2 ^ (j - a))) at 1. apply rn_mono. rewrite two_Z by lia.
      apply Qle_shift_div_l; [assumption|]. rewrite <- two_plus. replace (j - a + a)%Z with j by lia. exact Z. }
    apply Qle_trans with (2 ^ (Z.max (k + 1) (-1074))).
    { apply Low; [exact Ek|]. apply Qle_trans with (2 ^ (k + 1)); [lra|apply two_mono; lia]. }
    apply Qle_trans with (2 ^ l); [apply two_mono; lia|].
    apply High; [lia|exact Y1].
Qed.

Lemma rval_nonneg x : 0 < x -> 0 <= rval x.
Proof.
  intros P. unfold rval. pose proof (two_pos (last_digit (qlog2 x))). apply Qmult_le_0_compat; [|lra].
  change 0 with (inject_Z 0). rewrite <- Zle_Qle. rewrite <- (rn_Z 0). apply rn_mono. apply Qle_shift_div_l; [assumption|]. change (inject_Z 0) with 0. lra.
Qed.

(** The value of a rounded number. *)
Lemma round64_val x y : is (round64 x) y ->
  y == match x ?= 0 with Eq => 0 | Gt => rval x | Lt => - rval (- x) end.
Proof.
  unfold round64, round_pos. cbv zeta. intros I.
  assert (G : forall neg m e, is (pack neg m e) y -> y == if neg then - (inject_Z m * 2 ^ e) else inject_Z m * 2 ^ e).
  { intros neg m e (z & E & Z). unfold pack in E. destruct (Qle_bool _ _); [discriminate|]. injection E as <-. rewrite Qred_correct in Z. lra. }
  destruct (x ?= 0).
  - destruct I as (z & E & Z). injection E as <-. lra.
  - apply G in I. exact I.
  - apply G in I. exact I.
Qed.

Theorem round64_mono x x' y y' : x <= x' -> is (round64 x) y -> is (round64 x') y' -> y <= y'.
Proof.
  intros L I I'. apply round64_val in I, I'. rewrite I, I'.
  destruct (Qcompare_spec x 0) as [E | E | E], (Qcompare_spec x' 0) as [E' | E' | E']; try lra.
  - pose proof (rval_nonneg x' E'). lra.
  - pose proof (rval_nonneg (- x) ltac:(lra)). lra.
  - pose proof (rval_mono (- x') (- x) ltac:(lra) ltac:(lra)). lra.
  - pose proof (rval_nonneg (- x) ltac:(lra)). pose proof (rval_nonneg x' E'). lra.
  - apply rval_mono; assumption.
Qed.

(** * Rounding to integers, halves away from zero *)

Lemma round_away_error x : Qabs (inject_Z (round_away x) - x) <= 1 # 2.
Proof.
  apply Qabs_Qle_condition. unfold round_away. destruct (Qle_bool 0 x) eqn:E.
  - pose proof (Qfloor_le (x + (1 # 2))). pose proof (Qlt_floor (x + (1 # 2))) as F. rewrite inject_Z_plus in F. change (inject_Z 1) with 1 in F. lra.
  - pose proof (Qfloor_le (- x + (1 # 2))). pose proof (Qlt_floor (- x + (1 # 2))) as F. rewrite inject_Z_plus in F. change (inject_Z 1) with 1 in F.
    rewrite inject_Z_opp. lra.
Qed.

Lemma round_away_mono x y : x <= y -> (round_away x <= round_away y)%Z.
Proof.
  intros L. unfold round_away.
  assert (F : forall z, 0 <= z -> (0 <= Qfloor (z + (1 # 2)))%Z).
  { intros z Z. change 0%Z with (Qfloor 0). apply Qfloor_resp_le. lra. }
  destruct (Qle_bool 0 x) eqn:E, (Qle_bool 0 y) eqn:E'; try apply Qle_bool_iff in E; try apply Qle_bool_iff in E'.
  - apply Qfloor_resp_le. lra.
  - exfalso. assert (C : 0 <= y) by lra. apply Qle_bool_iff in C. congruence.
  - assert (~ 0 <= x) by (intros C; apply Qle_bool_iff in C; congruence). pose proof (F (- x) ltac:(lra)). pose proof (F y E'). lia.
  - assert (Qfloor (- y + (1 # 2)) <= Qfloor (- x + (1 # 2)))%Z; [apply Qfloor_resp_le; lra|lia].
Qed.

Lemma round_to_int_ok wild f x : is f x -> Qabs x <= 2 ^ 63 - 1 ->
  exists z, f = Fin z /\ z == x /\ round_to_int wild f = round_away z.
Proof.
  intros (z & -> & Z) L. exists z. split; [reflexivity|]. split; [exact Z|]. cbn [round_to_int].
  pose proof (round_away_error z) as R. apply Qabs_Qle_condition in L, R.
  assert (B : inject_Z (- 2 ^ 63) < inject_Z (round_away z) + 1 /\ inject_Z (round_away z) < inject_Z (2 ^ 63 - 1) + 1).
  { assert (inject_Z (2 ^ 63 - 1) == 2 ^ 63 - 1) by (vm_compute; reflexivity).
    assert (inject_Z (- 2 ^ 63) == - (2 ^ 63)) by (vm_compute; reflexivity). lra. }
  change 1 with (inject_Z 1) in B. rewrite <- !inject_Z_plus, <- !Zlt_Qlt in B. change (- 2 ^ 63)%Z with (-9223372036854775808)%Z in B. change (2 ^ 63 - 1)%Z with 9223372036854775807%Z in B.
  destruct B as [B1 B2]. assert (B1' : (-9223372036854775808 <= round_away z)%Z) by lia. assert (B2' : (round_away z <= 9223372036854775807)%Z) by lia.
  apply Z.leb_le in B1', B2'. rewrite B1', B2'. reflexivity.
Qed.

(** * x*y + z *)

Lemma fmuladd_error fuse f g h x y z : is f x -> is g y -> is h z -> Qabs (x * y) <= 2 ^ 100 -> Qabs z <= 2 ^ 100 ->
  exists w, is (fmuladd fuse f g h) w /\ Qabs (w - (x * y + z)) <= 2 ^ (-51) * (Qabs (x * y) + Qabs z) + 2 ^ (-1000).
Proof.
  intros (a & -> & A) (b & -> & B) (c & -> & C) Lp Lz.
  assert (P : forall d, Qabs d <= 2 ^ 102 -> Qabs d < 2 ^ 1023).
  { intros d D. eapply Qle_lt_trans; [exact D|]. apply Qlt_le_trans with (2 ^ 103); [reflexivity|apply two_mono; lia]. }
  assert (H100 : 2 ^ 102 == 4 * 2 ^ 100) by (vm_compute; reflexivity). assert (P100 := two_pos 100).
  assert (Tn : 4 * tiny <= 2 ^ (-1000)).
  { unfold tiny. change 4 with (2 ^ 2). rewrite <- two_plus. apply two_mono. lia. }
  assert (Pt : 0 < tiny) by apply two_pos. assert (Tb : tiny <= 2 ^ 100) by (apply two_mono; lia).
  assert (U : 2 ^ (-51) == 4 * unit) by (vm_compute; reflexivity). pose proof unit_pos as Pu. pose proof unit_small as Us.
  pose proof (Qabs_triangle (x * y) z) as T.
  assert (X0 := Qabs_nonneg (x * y)). assert (Z0 := Qabs_nonneg z).
  destruct fuse; cbn [fmuladd].
  - assert (E : a * b + c == x * y + z) by (rewrite A, B, C; reflexivity).
    destruct (round64_error (a * b + c)) as (w & I & R); [apply P; rewrite E; lra|].
    exists w. split; [exact I|]. rewrite U. rewrite E in R. eapply Qle_trans; [exact R|].
    set (q := x * y) in *. set (u := unit) in *. set (t := tiny) in *. clearbody q u t. nra.
  - assert (E : a * b == x * y) by (rewrite A, B; reflexivity).
    destruct (round64_error (a * b)) as (p & Ip & Rp); [apply P; rewrite E; lra|]. rewrite E in Rp.
    assert (Tp : Qabs p <= Qabs (x * y) + (unit * Qabs (x * y) + tiny)).
    { setoid_replace p with (x * y + (p - x * y)) by ring. eapply Qle_trans; [apply Qabs_triangle|]. lra. }
    destruct (fadd_is (fmul (Fin a) (Fin b)) (Fin c) p z) as (v & -> & V); [exact Ip|exists c; auto|].
    pose proof (Qabs_triangle p z) as T2.
    assert (Ub : unit * Qabs (x * y) <= (1 # 4) * Qabs (x * y)) by (apply Qmult_le_compat_r; assumption).
    destruct (round64_error v) as (w & Iw & Rw); [apply P; rewrite V; lra|]. rewrite V in Rw.
    exists w. split; [exact Iw|]. rewrite U.
    setoid_replace (w - (x * y + z)) with ((w - (p + z)) + (p - x * y)) by ring.
    eapply Qle_trans; [apply Qabs_triangle|].
    assert (Qabs (w - (p + z)) <= unit * (Qabs (x * y) * (5 # 4) + tiny + Qabs z) + tiny).
    { eapply Qle_trans; [exact Rw|]. assert (unit * Qabs (p + z) <= unit * (Qabs (x * y) * (5 # 4) + tiny + Qabs z)); [|lra].
      apply Qmult_le_l; [exact Pu|]. lra. }
    set (q := Qabs (x * y)) in *. set (zz := Qabs z) in *. set (u := unit) in *. set (t := tiny) in *.
    assert (u * t <= (1 # 4) * t) by (apply Qmult_le_compat_r; lra).
    assert (0 <= u * q) by (apply Qmult_le_0_compat; lra). assert (0 <= u * zz) by (apply Qmult_le_0_compat; lra).
    assert (u * (q * (5 # 4) + t + zz) == (5 # 4) * (u * q) + u * t + u * zz) by ring.
    assert (4 * u * (q + zz) == 4 * (u * q) + 4 * (u * zz)) by ring. lra.
Qed.

Lemma fmuladd_mono fuse f f' g h x x' y z w w' : is f x -> is f' x' -> is g y -> is h z -> 0 <= y -> x <= x' ->
  is (fmuladd fuse f g h) w -> is (fmuladd fuse f' g h) w' -> w <= w'.
Proof.
  intros (a & -> & A) (a' & -> & A') (b & -> & B) (c & -> & C) Y L I I'.
  assert (M : a * b <= a' * b) by (rewrite A, A', B; apply Qmult_le_compat_r; assumption).
  destruct fuse; cbn [fmuladd] in I, I'.
  - apply (round64_mono (a * b + c) (a' * b + c)); [lra|exact I|exact I'].
  - cbn [fmul] in I, I'. destruct (round64 (a * b)) as [p | |] eqn:E, (round64 (a' * b)) as [p' | |] eqn:E';
      cbn [fadd] in I, I'; try (destruct I as (? & D & _); discriminate); try (destruct I' as (? & D & _); discriminate).
    apply (round64_mono (p + c) (p' + c)); [|exact I|exact I'].
    assert (p <= p'); [|lra]. apply (round64_mono (a * b) (a' * b)); [exact M|rewrite E; apply is_fin|rewrite E'; apply is_fin].
Qed.
