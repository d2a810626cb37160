From Coq Require Import QArith Qround Qabs Qpower Lqa Lia ZArith.
From Verif Require Import Model.Base Model.Float.
Local Open Scope Q_scope.

(** * Powers of two *)

Lemma two_pos e : 0 < 2 ^ e.
Proof. apply Qpower_0_lt. reflexivity. Qed.

Lemma two_plus a b : 2 ^ (a + b) == 2 ^ a * 2 ^ b.
Proof. apply Qpower_plus. discriminate. Qed.

Lemma two_succ a : 2 ^ (a + 1) == 2 * 2 ^ a.
Proof. rewrite two_plus. change (2 ^ 1) with 2. ring. Qed.

Lemma two_Z n : (0 <= n)%Z -> inject_Z (2 ^ n) == 2 ^ n.
Proof. intros H. rewrite Zpower_Qpower by exact H. reflexivity. Qed.

Lemma two_mono a b : (a <= b)%Z -> 2 ^ a <= 2 ^ b.
Proof. intros H. apply Qpower_le_compat_l; [exact H|]. lra. Qed.

Lemma two_mono_inv a b : 2 ^ a < 2 ^ b -> (a < b)%Z.
Proof.
  intros H. destruct (Z.lt_ge_cases a b) as [L | L]; [exact L|]. exfalso.
  pose proof (two_mono b a L). lra.
Qed.

Lemma two_opp e : 2 ^ (- e) == / 2 ^ e.
Proof. apply Qpower_opp. Qed.

(** * The binary logarithm *)

Lemma qlog2_spec x : 0 < x -> 2 ^ (qlog2 x) <= x /\ x < 2 ^ (qlog2 x + 1).
Proof.
  destruct x as [n d]. intros H. unfold qlog2. cbn [Qnum Qden].
  assert (Hn : (0 < n)%Z) by (unfold Qlt in H; cbn in H; lia).
  destruct (Z.log2_spec n Hn) as [N1 N2].
  destruct (Z.log2_spec (Zpos d)) as [D1 D2]; [lia|].
  set (a := Z.log2 n) in *. set (b := Z.log2 (Zpos d)) in *.
  assert (Ha : (0 <= a)%Z) by apply Z.log2_nonneg. assert (Hb : (0 <= b)%Z) by apply Z.log2_nonneg.
  assert (Ex : n # d == inject_Z n / inject_Z (Zpos d)) by apply Qmake_Qdiv.
  assert (Pd : 0 < inject_Z (Zpos d)) by reflexivity.
  assert (N1' : 2 ^ a <= inject_Z n) by (rewrite <- two_Z by exact Ha; rewrite <- Zle_Qle; exact N1).
  assert (N2' : inject_Z n < 2 ^ (a + 1)) by (rewrite <- two_Z by lia; rewrite <- Zlt_Qlt; exact N2).
  assert (D1' : 2 ^ b <= inject_Z (Zpos d)) by (rewrite <- two_Z by exact Hb; rewrite <- Zle_Qle; exact D1).
  assert (D2' : inject_Z (Zpos d) < 2 ^ (b + 1)) by (rewrite <- two_Z by lia; rewrite <- Zlt_Qlt; exact D2).
  assert (Up : n # d < 2 ^ (a - b + 1)).
  { rewrite Ex. apply Qlt_shift_div_r; [exact Pd|]. eapply Qlt_le_trans; [exact N2'|].
    replace (a + 1)%Z with (a - b + 1 + b)%Z by lia. rewrite (two_plus (a - b + 1) b).
    apply Qmult_le_l; [apply two_pos|exact D1']. }
  assert (Lo : 2 ^ (a - b - 1) < n # d).
  { rewrite Ex. apply Qlt_shift_div_l; [exact Pd|]. eapply Qlt_le_trans; [|exact N1'].
    replace a with (a - b - 1 + (b + 1))%Z at 2 by lia. rewrite (two_plus (a - b - 1) (b + 1)).
    apply Qmult_lt_l; [apply two_pos|exact D2']. }
  destruct (Qle_bool (2 ^ (a - b)) (n # d)) eqn:E.
  - apply Qle_bool_iff in E. split; [exact E|exact Up].
  - assert (~ 2 ^ (a - b) <= n # d) by (intros C; apply Qle_bool_iff in C; congruence).
    split; [apply Qlt_le_weak; exact Lo|]. replace (a - b - 1 + 1)%Z with (a - b)%Z by lia. lra.
Qed.

Lemma qlog2_lt x b : 0 < x -> x < 2 ^ b -> (qlog2 x < b)%Z.
Proof. intros H1 H2. apply two_mono_inv. pose proof (qlog2_spec x H1). lra. Qed.

Lemma qlog2_ge x b : 0 < x -> 2 ^ b <= x -> (b <= qlog2 x)%Z.
Proof.
  intros H1 H2. assert (b < qlog2 x + 1)%Z; [|lia]. apply two_mono_inv. pose proof (qlog2_spec x H1). lra.
Qed.

(** * Rounding to an integer *)

Lemma nearest_spec y : let f := Qfloor y in
  Qabs (inject_Z (nearest f (y ?= inject_Z f + (1 # 2))) - y) <= 1 # 2.
Proof.
  intros f. pose proof (Qfloor_le y) as H1. pose proof (Qlt_floor y) as H2. fold f in H1, H2.
  rewrite inject_Z_plus in H2. change (inject_Z 1) with 1 in H2.
  apply Qabs_Qle_condition. unfold nearest.
  destruct (Qcompare_spec y (inject_Z f + (1 # 2))) as [E | E | E].
  - destruct (Z.even f); rewrite ?inject_Z_plus; change (inject_Z 1) with 1; lra.
  - lra.
  - rewrite inject_Z_plus. change (inject_Z 1) with 1. lra.
Qed.

Lemma nearest_exact y z : y == inject_Z z -> nearest (Qfloor y) (y ?= inject_Z (Qfloor y) + (1 # 2)) = z.
Proof.
  intros H. assert (E : Qfloor y = z) by (rewrite H; apply Qfloor_Z). rewrite E. unfold nearest.
  destruct (Qcompare_spec y (inject_Z z + (1 # 2))) as [C | C | C]; [lra|reflexivity|lra].
Qed.

Lemma pack_small neg m e : inject_Z m * 2 ^ e < 2 ^ 1024 ->
  pack neg m e = Fin (Qred (if neg then - (inject_Z m * 2 ^ e) else inject_Z m * 2 ^ e)).
Proof.
  intros H. unfold pack. destruct (Qle_bool (2 ^ 1024) (inject_Z m * 2 ^ e)) eqn:E; [|reflexivity].
  apply Qle_bool_iff in E. lra.
Qed.

Definition unit : Q := 2 ^ (-53).
Definition tiny : Q := 2 ^ (-1075).

(** The rounding error of a positive number. *)
Lemma round_pos_error neg x : 0 < x -> x < 2 ^ 1023 ->
  exists y, round_pos neg x = Fin (Qred (if neg then - y else y)) /\ 0 <= y /\
    Qabs (y - x) <= unit * x + tiny /\ (2 ^ (-1022) <= x -> Qabs (y - x) <= unit * x) /\
    exists z, y == inject_Z z * 2 ^ (last_digit (qlog2 x)).
Proof.
  intros H1 H2. unfold round_pos. set (e := last_digit (qlog2 x)). set (y := x / 2 ^ e).
  set (m := nearest (Qfloor y) (y ?= inject_Z (Qfloor y) + (1 # 2))).
  pose proof (two_pos e) as Pe. pose proof (qlog2_spec x H1) as [L1 L2].
  assert (Ex : x == y * 2 ^ e) by (unfold y; field; lra).
  assert (Err : Qabs (inject_Z m * 2 ^ e - x) <= (1 # 2) * 2 ^ e).
  { rewrite Ex. setoid_replace (inject_Z m * 2 ^ e - y * 2 ^ e) with ((inject_Z m - y) * 2 ^ e) by ring.
    rewrite Qabs_Qmult, (Qabs_pos (2 ^ e)) by lra. apply Qmult_le_r; [exact Pe|].
    exact (nearest_spec y). }
  assert (Rel : (1 # 2) * 2 ^ e <= unit * x + tiny /\ (2 ^ (-1022) <= x -> (1 # 2) * 2 ^ e <= unit * x)).
  { assert (Half : forall k, (1 # 2) * 2 ^ (k - 52) == unit * 2 ^ k).
    { intros k. unfold unit. replace (k - 52)%Z with (-53 + k + 1)%Z by lia.
      rewrite two_succ, two_plus. ring. }
    assert (Tn : (1 # 2) * 2 ^ (-1074) == tiny).
    { unfold tiny. change (-1074)%Z with (-1075 + 1)%Z. rewrite two_succ. ring. }
    assert (Pu : 0 < unit) by apply two_pos. assert (Pt : 0 < tiny) by apply two_pos.
    assert (Hx : unit * 2 ^ (qlog2 x) <= unit * x) by (apply Qmult_le_l; [exact Pu|exact L1]).
    unfold e, last_digit.
    destruct (Z.max_spec (qlog2 x - 52) (-1074)) as [[M ->] | [M ->]].
    - split.
      + rewrite Tn. assert (0 <= unit * x) by (apply Qmult_le_0_compat; lra). lra.
      + intros N. exfalso. apply (qlog2_ge x (-1022) H1) in N. lia.
    - rewrite Half. split; [lra|intros _; lra]. }
  exists (inject_Z m * 2 ^ e).
  assert (Pm : 0 <= inject_Z m).
  { change 0 with (inject_Z 0). rewrite <- Zle_Qle. unfold m, nearest.
    assert (0 <= Qfloor y)%Z.
    { change 0%Z with (Qfloor 0). apply Qfloor_resp_le. unfold y. apply Qle_shift_div_l; [exact Pe|]. lra. }
    destruct (y ?= _); [destruct (Z.even (Qfloor y))| |]; lia. }
  split; [|split; [|split; [|split]]].
  - rewrite pack_small; [reflexivity|].
    apply Qabs_Qle_condition in Err. destruct Err as [_ Err]. destruct Rel as [Rel _].
    assert (unit * x <= x * (1 # 2)).
    { rewrite Qmult_comm. apply Qmult_le_l; [exact H1|]. unfold unit. apply (two_mono (-53) (-1)). lia. }
    assert (tiny <= 1) by (apply (two_mono (-1075) 0); lia).
    assert (2 ^ 1024 == 2 * 2 ^ 1023) by (change 1024%Z with (1023 + 1)%Z; apply two_succ).
    assert (2 <= 2 ^ 1023) by (apply (two_mono 1 1023); lia).
    lra.
  - apply Qmult_le_0_compat; [exact Pm|lra].
  - destruct Rel as [Rel _]. lra.
  - intros N. destruct Rel as [_ Rel]. specialize (Rel N). lra.
  - exists m. reflexivity.
Qed.

(** A number of the format is not changed. *)
Lemma round_pos_exact neg x m e : 0 < x -> x < 2 ^ 1024 -> x == inject_Z m * 2 ^ e ->
  (m < 2 ^ 53)%Z -> (-1074 <= e)%Z ->
  exists y, y == x /\ round_pos neg x = Fin (Qred (if neg then - y else y)).
Proof.
  intros H1 H2 H3 H4 H5. unfold round_pos. set (g := last_digit (qlog2 x)).
  assert (Pe := two_pos e). assert (Pg := two_pos g).
  assert (Lt : x < 2 ^ (53 + e)).
  { rewrite H3, two_plus. apply Qmult_lt_r; [exact Pe|]. rewrite <- two_Z by lia. rewrite <- Zlt_Qlt. exact H4. }
  assert (Hg : (g <= e)%Z).
  { pose proof (qlog2_lt x _ H1 Lt). unfold g, last_digit. lia. }
  assert (Ey : x / 2 ^ g == inject_Z (m * 2 ^ (e - g))).
  { rewrite inject_Z_mult, two_Z by lia. rewrite H3.
    replace e with (e - g + g)%Z at 1 by lia. rewrite (two_plus (e - g) g). field. lra. }
  cbv zeta. rewrite (nearest_exact _ _ Ey). exists (inject_Z (m * 2 ^ (e - g)) * 2 ^ g).
  assert (Ex : inject_Z (m * 2 ^ (e - g)) * 2 ^ g == x) by (rewrite <- Ey; field; lra).
  split; [exact Ex|]. apply pack_small. lra.
Qed.

(** * Rounding, of either sign *)

(** The value of a float known to be finite. *)
Definition is (f : float) (y : Q) : Prop := exists z, f = Fin z /\ z == y.

Lemma is_fin q : is (Fin q) q.
Proof. exists q. split; reflexivity. Qed.

Lemma is_eq f x y : x == y -> is f x -> is f y.
Proof. intros E (z & -> & Z). exists z. split; [reflexivity|]. lra. Qed.

Lemma is_fun f x y : is f x -> is f y -> x == y.
Proof. intros (z & -> & Z) (w & W & W'). injection W as ->. lra. Qed.

Definition close (y x : Q) : Prop := Qabs (y - x) <= unit * Qabs x.

Definition normal (x : Q) : Prop := x == 0 \/ (2 ^ (-1022) <= Qabs x /\ Qabs x < 2 ^ 1023).

Lemma unit_pos : 0 < unit. Proof. apply two_pos. Qed.
Lemma unit_small : unit <= 1 # 4.
Proof. change (unit <= 2 ^ (-2)). apply two_mono. lia. Qed.

Lemma round64_error x : Qabs x < 2 ^ 1023 ->
  exists y, is (round64 x) y /\ Qabs (y - x) <= unit * Qabs x + tiny.
Proof.
  intros H. unfold round64. destruct (Qcompare_spec x 0) as [E | E | E].
  - exists 0. split; [apply is_fin|]. rewrite E. assert (0 < tiny) by apply two_pos. cbn. lra.
  - assert (A : Qabs x == - x) by (apply Qabs_neg; lra). rewrite A in H.
    destruct (round_pos_error true (- x)) as (y & R & _ & B & _); [lra|exact H|].
    exists (- y). split; [exists (Qred (- y)); split; [exact R|apply Qred_correct]|].
    setoid_replace (- y - x) with (- (y - - x)) by ring. rewrite Qabs_opp, A. exact B.
  - assert (A : Qabs x == x) by (apply Qabs_pos; lra). rewrite A in H.
    destruct (round_pos_error false x) as (y & R & _ & B & _); [lra|exact H|].
    exists y. split; [exists (Qred y); split; [exact R|apply Qred_correct]|rewrite A; exact B].
Qed.

Lemma round64_close x : normal x -> exists y, is (round64 x) y /\ close y x.
Proof.
  unfold normal, close. intros H. unfold round64. destruct (Qcompare_spec x 0) as [E | E | E].
  - exists 0. split; [apply is_fin|]. rewrite E. cbn. lra.
  - destruct H as [H | [H1 H2]]; [lra|]. assert (A : Qabs x == - x) by (apply Qabs_neg; lra). rewrite A in H1, H2.
    destruct (round_pos_error true (- x)) as (y & R & _ & _ & B & _); [lra|exact H2|].
    exists (- y). split; [exists (Qred (- y)); split; [exact R|apply Qred_correct]|].
    setoid_replace (- y - x) with (- (y - - x)) by ring. rewrite Qabs_opp, A. apply B, H1.
  - destruct H as [H | [H1 H2]]; [lra|]. assert (A : Qabs x == x) by (apply Qabs_pos; lra). rewrite A in H1, H2.
    destruct (round_pos_error false x) as (y & R & _ & _ & B & _); [lra|exact H2|].
    exists y. split; [exists (Qred y); split; [exact R|apply Qred_correct]|rewrite A; apply B, H1].
Qed.

Lemma round64_exact x m e : x == inject_Z m * 2 ^ e -> (Z.abs m < 2 ^ 53)%Z -> (-1074 <= e)%Z ->
  Qabs x < 2 ^ 1024 -> is (round64 x) x.
Proof.
  intros H1 H2 H3 H4. unfold round64. destruct (Qcompare_spec x 0) as [E | E | E].
  - apply (is_eq _ 0); [lra|apply is_fin].
  - rewrite Qabs_neg in H4 by lra.
    destruct (round_pos_exact true (- x) (- m) e) as (y & E1 & E2); [lra|exact H4| |lia|exact H3|].
    + rewrite inject_Z_opp, H1. ring.
    + exists (Qred (- y)). split; [exact E2|]. rewrite Qred_correct, E1. ring.
  - rewrite Qabs_pos in H4 by lra.
    destruct (round_pos_exact false x m e) as (y & E1 & E2); [lra|exact H4|exact H1|lia|exact H3|].
    exists (Qred y). split; [exact E2|]. rewrite Qred_correct, E1. reflexivity.
Qed.

Lemma inject_Z_abs z : Qabs (inject_Z z) == inject_Z (Z.abs z).
Proof. reflexivity. Qed.

Lemma round64_Z z : (Z.abs z < 2 ^ 53)%Z -> is (round64 (inject_Z z)) (inject_Z z).
Proof.
  intros H. apply (round64_exact _ z 0); [|exact H|lia|].
  - change (2 ^ 0) with 1. ring.
  - rewrite inject_Z_abs. apply Qlt_trans with (2 ^ 53).
    + rewrite <- two_Z by lia. rewrite <- Zlt_Qlt. exact H.
    + apply Qlt_le_trans with (2 ^ 54); [reflexivity|apply two_mono; lia].
Qed.

(** * The operations *)

#[global] Instance close_proper : Proper (Qeq ==> Qeq ==> iff) close.
Proof. intros x x' Ex y y' Ey. unfold close. rewrite Ex, Ey. tauto. Qed.
#[global] Instance normal_proper : Proper (Qeq ==> iff) normal.
Proof. intros x x' Ex. unfold normal. rewrite Ex. tauto. Qed.
#[global] Instance is_proper f : Proper (Qeq ==> iff) (is f).
Proof. intros x x' Ex. split; apply is_eq; lra. Qed.

Lemma fadd_is f g x y : is f x -> is g y -> exists z, fadd f g = round64 z /\ z == x + y.
Proof. intros (a & -> & A) (b & -> & B). exists (a + b). split; [reflexivity|]. rewrite A, B. reflexivity. Qed.

Lemma fsub_is f g x y : is f x -> is g y -> exists z, fsub f g = round64 z /\ z == x - y.
Proof.
  intros (a & -> & A) (b & -> & B). exists (a + Qred (- b)). split; [reflexivity|]. rewrite Qred_correct, A, B. reflexivity.
Qed.

Lemma fmul_is f g x y : is f x -> is g y -> exists z, fmul f g = round64 z /\ z == x * y.
Proof. intros (a & -> & A) (b & -> & B). exists (a * b). split; [reflexivity|]. rewrite A, B. reflexivity. Qed.

Lemma fdiv_is f g x y : is f x -> is g y -> ~ y == 0 -> exists z, fdiv f g = round64 z /\ z == x / y.
Proof.
  intros (a & -> & A) (b & -> & B) N. exists (a / b). split.
  - cbn. destruct (Qeq_bool b 0) eqn:E; [|reflexivity]. apply Qeq_bool_iff in E. exfalso. apply N. lra.
  - rewrite A, B. reflexivity.
Qed.

Lemma is_round z x y : z == x -> is (round64 z) y -> exists f, f = round64 z /\ is f y.
Proof. intros _ I. eauto. Qed.

Lemma fadd_close f g x y : is f x -> is g y -> normal (x + y) -> exists z, is (fadd f g) z /\ close z (x + y).
Proof.
  intros F G N. destruct (fadd_is f g x y F G) as (w & -> & E). rewrite <- E in N.
  destruct (round64_close w N) as (z & I & C). exists z. rewrite <- E. auto.
Qed.

Lemma fsub_close f g x y : is f x -> is g y -> normal (x - y) -> exists z, is (fsub f g) z /\ close z (x - y).
Proof.
  intros F G N. destruct (fsub_is f g x y F G) as (w & -> & E). rewrite <- E in N.
  destruct (round64_close w N) as (z & I & C). exists z. rewrite <- E. auto.
Qed.

Lemma fmul_close f g x y : is f x -> is g y -> normal (x * y) -> exists z, is (fmul f g) z /\ close z (x * y).
Proof.
  intros F G N. destruct (fmul_is f g x y F G) as (w & -> & E). rewrite <- E in N.
  destruct (round64_close w N) as (z & I & C). exists z. rewrite <- E. auto.
Qed.

Lemma fdiv_close f g x y : is f x -> is g y -> ~ y == 0 -> normal (x / y) -> exists z, is (fdiv f g) z /\ close z (x / y).
Proof.
  intros F G N0 N. destruct (fdiv_is f g x y F G N0) as (w & -> & E). rewrite <- E in N.
  destruct (round64_close w N) as (z & I & C). exists z. rewrite <- E. auto.
Qed.

Lemma Zsqrt_Q y : 0 <= y -> let f := Z.sqrt (Qfloor y) in
  (0 <= f)%Z /\ inject_Z f * inject_Z f <= y /\ y < (inject_Z f + 1) * (inject_Z f + 1).
Proof.
  intros H f. assert (Hf : (0 <= Qfloor y)%Z) by (change 0%Z with (Qfloor 0); apply Qfloor_resp_le; exact H).
  destruct (Z.sqrt_spec (Qfloor y) Hf) as [S1 S2]. fold f in S1, S2.
  split; [apply Z.sqrt_nonneg|]. split.
  - eapply Qle_trans; [|apply Qfloor_le]. rewrite <- inject_Z_mult, <- Zle_Qle. exact S1.
  - eapply Qlt_le_trans; [apply Qlt_floor|]. change 1 with (inject_Z 1). rewrite <- inject_Z_plus, <- inject_Z_mult, <- Zle_Qle. lia.
Qed.

(** Nearest integer to a square root of at least 2^52. *)
Lemma root_nearest y : 2 ^ 52 * 2 ^ 52 <= y ->
  let f := Z.sqrt (Qfloor y) in let h := inject_Z f + (1 # 2) in
  let q := inject_Z (nearest f (y ?= h * h)) in
  0 <= q /\ (1 - unit) * (1 - unit) * y <= q * q /\ q * q <= (1 + unit) * (1 + unit) * y.
Proof.
  intros Hy f h q.
  assert (Py : 0 <= y) by (eapply Qle_trans; [|exact Hy]; discriminate).
  destruct (Zsqrt_Q y Py) as (F0 & F1 & F2). fold f in F0, F1, F2.
  assert (Fl : (2 ^ 52 <= f)%Z).
  { unfold f. change (2 ^ 52)%Z with (Z.sqrt (2 ^ 52 * 2 ^ 52)). apply Z.sqrt_le_mono.
    change (2 ^ 52 * 2 ^ 52)%Z with (Qfloor (2 ^ 52 * 2 ^ 52)). apply Qfloor_resp_le. exact Hy. }
  assert (Fq : 2 ^ 52 <= inject_Z f) by (rewrite <- two_Z by lia; rewrite <- Zle_Qle; exact Fl).
  assert (U : unit * 2 ^ 52 == 1 # 2) by (vm_compute; reflexivity).
  pose proof unit_pos as Pu. pose proof unit_small as Us.
  assert (T52 : 1 <= 2 ^ 52) by (vm_compute; discriminate).
  assert (B : inject_Z f <= q /\ (q == inject_Z f \/ q == inject_Z f + 1 /\ (q - (1 # 2)) * (q - (1 # 2)) <= y) /\ y <= (q + (1 # 2)) * (q + (1 # 2))).
  { subst q h. clear -F2 Fq T52. unfold nearest. set (F := inject_Z f) in *.
    assert (E1 : inject_Z (f + 1) == F + 1) by (rewrite inject_Z_plus; reflexivity).
    assert (G : (F - (1 # 2)) * (F - (1 # 2)) <= F * F) by nra.
    destruct (Qcompare_spec y ((F + (1 # 2)) * (F + (1 # 2)))) as [E | E | E].
    - destruct (Z.even f).
      + fold F. split; [lra|]. split; [left; reflexivity|nra].
      + rewrite E1. split; [lra|]. split; [right; split; [reflexivity|nra]|nra].
    - fold F. split; [lra|]. split; [left; reflexivity|nra].
    - rewrite E1. split; [lra|]. split; [right; split; [reflexivity|nra]|nra]. }
  clearbody q. destruct B as (B1 & B2 & B3). split; [lra|]. set (F := inject_Z f) in *. clearbody F.
  set (t := 2 ^ 52) in *. set (u := unit) in *. clearbody t u. clear h Fl F0 f.
  split.
  - assert (L : (1 - u) * (q + (1 # 2)) <= q) by nra.
    apply Qle_trans with ((1 - u) * (q + (1 # 2)) * ((1 - u) * (q + (1 # 2)))).
    + setoid_replace ((1 - u) * (q + (1 # 2)) * ((1 - u) * (q + (1 # 2)))) with ((1 - u) * (1 - u) * ((q + (1 # 2)) * (q + (1 # 2)))) by ring.
      apply Qmult_le_l; [nra|exact B3].
    + apply Qmult_le_compat_nonneg; nra.
  - destruct B2 as [B2 | [B2 B4]].
    + rewrite B2. apply Qle_trans with y; [exact F1|]. nra.
    + assert (L : q <= (1 + u) * (q - (1 # 2))) by nra.
      apply Qle_trans with ((1 + u) * (q - (1 # 2)) * ((1 + u) * (q - (1 # 2)))).
      * apply Qmult_le_compat_nonneg; nra.
      * setoid_replace ((1 + u) * (q - (1 # 2)) * ((1 + u) * (q - (1 # 2)))) with ((1 + u) * (1 + u) * ((q - (1 # 2)) * (q - (1 # 2)))) by ring.
        apply Qmult_le_l; [nra|exact B4].
Qed.

Lemma fsqrt_close f x : is f x -> 2 ^ (-1000) <= x -> x < 2 ^ 1000 ->
  exists y, is (fsqrt f) y /\ 0 <= y /\ (1 - unit) * (1 - unit) * x <= y * y /\ y * y <= (1 + unit) * (1 + unit) * x.
Proof.
  intros (a & -> & A) H1 H2. rewrite <- A in H1, H2.
  assert (Pa : 0 < a) by (eapply Qlt_le_trans; [apply two_pos|exact H1]).
  cbn [fsqrt]. destruct (Qcompare_spec a 0) as [E | E | _]; [lra|lra|].
  unfold sqrt_pos. set (k := qlog2 a). pose proof (qlog2_spec a Pa) as [L1 L2]. fold k in L1, L2.
  assert (Hk : (-1000 <= k)%Z) by (apply qlog2_ge; assumption).
  set (j := Z.div2 k). assert (Hj : (2 * j <= k)%Z /\ (-500 <= j)%Z).
  { subst j. rewrite Z.div2_div. pose proof (Z.div_mod k 2). pose proof (Z.mod_pos_bound k 2). lia. }
  assert (El : last_digit j = (j - 52)%Z) by (unfold last_digit; lia). rewrite El. set (e := (j - 52)%Z).
  pose proof (two_pos e) as Pe. set (y := a / (2 ^ e * 2 ^ e)).
  assert (PP : 0 < 2 ^ e * 2 ^ e) by nra.
  assert (Ea : a == y * (2 ^ e * 2 ^ e)) by (unfold y; field; lra).
  assert (Hy : 2 ^ 52 * 2 ^ 52 <= y).
  { unfold y. apply Qle_shift_div_l; [exact PP|]. rewrite <- !two_plus.
    eapply Qle_trans; [|exact L1]. apply two_mono. unfold e. lia. }
  destruct (root_nearest y Hy) as (R0 & R1 & R2). cbv zeta in R0, R1, R2.
  set (m := nearest (Z.sqrt (Qfloor y)) (y ?= (inject_Z (Z.sqrt (Qfloor y)) + (1 # 2)) * (inject_Z (Z.sqrt (Qfloor y)) + (1 # 2)))) in *.
  set (r := inject_Z m) in *.
  assert (Q1 : (1 - unit) * (1 - unit) * a <= r * 2 ^ e * (r * 2 ^ e)).
  { setoid_replace (r * 2 ^ e * (r * 2 ^ e)) with (r * r * (2 ^ e * 2 ^ e)) by ring.
    setoid_replace ((1 - unit) * (1 - unit) * a) with ((1 - unit) * (1 - unit) * y * (2 ^ e * 2 ^ e)) by (rewrite Ea at 1; ring).
    apply Qmult_le_r; [exact PP|exact R1]. }
  assert (Q2 : r * 2 ^ e * (r * 2 ^ e) <= (1 + unit) * (1 + unit) * a).
  { setoid_replace (r * 2 ^ e * (r * 2 ^ e)) with (r * r * (2 ^ e * 2 ^ e)) by ring.
    setoid_replace ((1 + unit) * (1 + unit) * a) with ((1 + unit) * (1 + unit) * y * (2 ^ e * 2 ^ e)) by (rewrite Ea at 1; ring).
    apply Qmult_le_r; [exact PP|exact R2]. }
  assert (P0 : 0 <= r * 2 ^ e) by (apply Qmult_le_0_compat; lra).
  exists (r * 2 ^ e). rewrite <- A. repeat split; [|exact P0|exact Q1|exact Q2].
  rewrite pack_small; [exists (Qred (r * 2 ^ e)); split; [reflexivity|apply Qred_correct]|].
  fold r. apply Qnot_le_lt. intros C.
  assert (2 ^ 1024 * 2 ^ 1024 <= r * 2 ^ e * (r * 2 ^ e)) by (apply Qmult_le_compat_nonneg; split; (exact C || apply Qlt_le_weak, two_pos)).
  assert (G : forall u b, 0 < u -> u <= 1 # 4 -> 0 < b -> (1 + u) * (1 + u) * b <= 4 * b).
  { clear. intros u b H1 H2 H3. apply Qmult_le_r; [exact H3|]. nra. }
  pose proof (G unit a unit_pos unit_small Pa) as G'. clear G.
  assert (4 * 2 ^ 1000 < 2 ^ 1024 * 2 ^ 1024) by (rewrite <- two_plus; change 4 with (2 ^ 2); rewrite <- two_plus; vm_compute; reflexivity).
  lra.
Qed.

Lemma fsqrt_zero f : is f 0 -> is (fsqrt f) 0.
Proof.
  intros (a & -> & A). cbn. destruct (Qcompare_spec a 0) as [E | E | E]; [apply is_fin|lra|lra].
Qed.
