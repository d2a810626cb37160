(** The sizes Estimate gives. *)
From Coq Require Import QArith Qround Qabs Qpower Lqa Lia ZArith.
From Verif Require Import Model.Base Model.Float Model.Config Model.Estimate Proof.FloatP Proof.StatsP2.
Local Open Scope Q_scope.

Definition eps : Q := 1 # 4503599627370496.
Definition big : Q := 1267650600228229401496703205376 # 1.
Definition small : Q := 1 # 1267650600228229401496703205376.
Lemma normal_between z : small <= z -> z <= big -> normal z.
Proof.
  intros A B. right. assert (P : 0 < small) by reflexivity. rewrite Qabs_pos by lra. split.
  - apply Qle_trans with (2 ^ (-100)); [apply two_mono; lia|]. exact A.
  - apply Qle_lt_trans with (2 ^ 100); [exact B|]. apply Qlt_le_trans with (2 ^ 101); [reflexivity|apply two_mono; lia].
Qed.
Lemma near y x : close y x -> 0 <= x -> x * (1 - eps) <= y /\ y <= x * (1 + eps).
Proof.
  unfold close. intros C P. rewrite (Qabs_pos x P) in C. apply Qabs_Qle_condition in C.
  assert (U : unit <= eps) by (vm_compute; discriminate). assert (unit * x <= eps * x) by (apply Qmult_le_compat_r; assumption). lra.
Qed.
Definition c2 : Q := Qred (match round64 (ln2 * ln2) with Fin q => q | _ => 0 end).
Definition l2 : Q := Qred (match round64 ln2 with Fin q => q | _ => 0 end).
Lemma c2_is : is (round64 (ln2 * ln2)) c2.
Proof. eexists. split; [vm_compute; reflexivity|vm_compute; reflexivity]. Qed.
Lemma l2_is : is (round64 ln2) l2.
Proof. eexists. split; [vm_compute; reflexivity|vm_compute; reflexivity]. Qed.
Lemma c2_near : ln2 * ln2 * (1 - eps) <= c2 /\ c2 <= ln2 * ln2 * (1 + eps).
Proof. split; vm_compute; discriminate. Qed.
Lemma l2_near : ln2 * (1 - eps) <= l2 /\ l2 <= ln2 * (1 + eps).
Proof. split; vm_compute; discriminate. Qed.
Lemma fabs_is f x : is f x -> is (fabs f) (Qabs x).
Proof. intros (z & -> & E). exists (Qabs z). split; [reflexivity|]. rewrite E. reflexivity. Qed.

Definition mult8 (m0 : Z) : Z := (m0 + (8 - Z.rem m0 8))%Z.
Lemma mult8_spec m0 : (0 <= m0)%Z -> (mult8 m0 mod 8 = 0 /\ m0 < mult8 m0 <= m0 + 8)%Z.
Proof.
  intros P. unfold mult8. rewrite Z.rem_mod_nonneg by lia. pose proof (Z.mod_pos_bound m0 8 ltac:(lia)). split; [|lia].
  replace (m0 + (8 - m0 mod 8))%Z with ((m0 / 8 + 1) * 8)%Z by (pose proof (Z.div_mod m0 8); lia). apply Z.mod_mul. lia.
Qed.

Section Est.
  Variable log : float -> float.
  Variable wild : float -> Z.
  (** [x]: n; [v]: the size of the logarithm. *)
  Lemma estimate_spec n fpr x v : is n x -> is (log fpr) (- v) -> 1 <= x -> x <= 1099511627776 # 1 -> 1 # 1099511627776 <= v -> v <= 1024 # 1 ->
    exists m k, estimate log wild n fpr = (m, k) /\ (m mod 8 = 0)%Z /\ (8 <= m)%Z /\
      x * v / (ln2 * ln2) * (1 - 4 * eps) < inject_Z m /\ inject_Z m <= x * v / (ln2 * ln2) * (1 + 4 * eps) + (17 # 2) /\
      exists w, k = round_away w /\ inject_Z m / x * ln2 * (1 - 4 * eps) <= w /\ w <= inject_Z m / x * ln2 * (1 + 4 * eps).
  Proof.
    intros Hn Hl X1 X2 V1 V2. unfold estimate.
    assert (P1 : 1 # 1099511627776 <= x * v).
    { apply Qle_trans with (1 * (1 # 1099511627776)); [vm_compute; discriminate|]. apply Qmult_le_compat_nonneg; split; try lra; vm_compute; discriminate. }
    assert (P2 : x * v <= 1125899906842624 # 1).
    { apply Qle_trans with ((1099511627776 # 1) * (1024 # 1)); [|vm_compute; discriminate]. apply Qmult_le_compat_nonneg; split; lra. }
    pose proof (fabs_is _ _ Hl) as Hv. rewrite Qabs_opp, (Qabs_pos v) in Hv by lra.
    destruct (fmul_close n (fabs (log fpr)) x v Hn Hv) as (a1 & I1 & C1). { apply normal_between; unfold small, big; lra. }
    apply near in C1; [|lra]. set (p := x * v) in *.
    assert (B1 : (1 # 2199023255552) <= a1 /\ a1 <= 2251799813685248 # 1) by (unfold eps in C1; lra).
    assert (Ec : forall a, a / c2 == a * / c2) by (intros; reflexivity). 
    let k := eval vm_compute in (Qred (/ c2)) in assert (Eic : / c2 == k) by (vm_compute; reflexivity).
    destruct (fdiv_close _ _ a1 c2 I1 c2_is) as (a2 & I2 & C2). { vm_compute. discriminate. } { rewrite Ec, Eic. apply normal_between; unfold small, big; lra. }
    rewrite Ec, Eic in C2. apply near in C2; [|lra].
    set (t := p / (ln2 * ln2)). assert (Et : t == p * / (ln2 * ln2)) by reflexivity. 
    let k := eval vm_compute in (Qred (/ (ln2 * ln2))) in assert (Eil : / (ln2 * ln2) == k) by (vm_compute; reflexivity). rewrite Eil in Et.
    assert (T1 : t * (1 - 4 * eps) <= a2) by (rewrite Et; unfold eps in *; lra).
    assert (T2 : a2 <= t * (1 + 4 * eps)) by (rewrite Et; unfold eps in *; lra).
    assert (T3 : 0 < a2 /\ a2 <= 5000000000000000 # 1) by (unfold eps in *; lra).
    destruct (round_to_int_ok wild _ a2 I2) as (z & Ez & Ez2 & Er). { rewrite Qabs_pos by lra. assert (E : (5000000000000000 # 1) <= 2 ^ 63 - 1) by (vm_compute; discriminate). lra. }
    rewrite Er. pose proof (round_away_error z) as R. apply Qabs_Qle_condition in R. set (m0 := round_away z) in *.
    assert (M0 : (0 <= m0)%Z). { assert (E : inject_Z (-1) < inject_Z m0) by (change (inject_Z (-1)) with (-1 # 1); lra). rewrite <- Zlt_Qlt in E. lia. }
    assert (M1 : (m0 <= 5000000000000001)%Z). { assert (E : inject_Z m0 < inject_Z 5000000000000002) by (change (inject_Z 5000000000000002) with (5000000000000002 # 1); lra). rewrite <- Zlt_Qlt in E. lia. }
    destruct (mult8_spec m0 M0) as (D & L1 & L2).
    assert (W : wrap64 (m0 + wrap64 (8 - Z.rem m0 8)) = mult8 m0).
    { unfold mult8 in *. unfold wrap64. rewrite Z.rem_mod_nonneg in * by lia. pose proof (Z.mod_pos_bound m0 8 ltac:(lia)). rewrite (Z.mod_small (8 - m0 mod 8 + 9223372036854775808)) by lia.
      rewrite Z.mod_small by lia. lia. }
    rewrite W. set (m := mult8 m0) in *. exists m.
    assert (G8 : (8 <= m)%Z). { pose proof (Z.div_mod m 8 ltac:(lia)). lia. }
    assert (IQ1 : inject_Z m0 + 1 <= inject_Z m). { change 1 with (inject_Z 1). rewrite <- inject_Z_plus, <- Zle_Qle. lia. }
    assert (IQ2 : inject_Z m <= inject_Z m0 + (8 # 1)). { change (8 # 1) with (inject_Z 8). rewrite <- inject_Z_plus, <- Zle_Qle. lia. }
    assert (IQ3 : 8 # 1 <= inject_Z m). { change (8 # 1) with (inject_Z 8). rewrite <- Zle_Qle. lia. }
    assert (IQ4 : inject_Z m <= 5000000000000009 # 1). { change (5000000000000009 # 1) with (inject_Z 5000000000000009). rewrite <- Zle_Qle. lia. }
    assert (If : is (float_of m) (inject_Z m)). { apply round64_Z. rewrite Z.abs_eq by lia. lia. }
    assert (Xn : ~ x == 0) by lra. set (r := inject_Z m / x).
    assert (Rl : (1 # 1099511627776) <= r). { apply Qle_shift_div_l; [lra|]. lra. }
    assert (Rh : r <= 5000000000000009 # 1). { apply Qle_shift_div_r; [lra|]. lra. }
    destruct (fdiv_close _ _ _ _ If Hn Xn) as (a3 & I3 & C3). { fold r. apply normal_between; unfold small, big; lra. }
    fold r in C3. apply near in C3; [|lra]. pose proof l2_near as Ll.
    let k := eval vm_compute in l2 in assert (Q3 : l2 = k) by (vm_compute; reflexivity).
    destruct (fmul_close _ _ a3 l2 I3 l2_is) as (a4 & I4 & C4). { apply normal_between; rewrite Q3; unfold small, big, eps in *; lra. }
    apply near in C4; [|rewrite Q3; unfold eps in *; lra]. rewrite Q3 in C4.
    assert (W1 : r * ln2 * (1 - 4 * eps) <= a4) by (unfold ln2, eps in *; lra).
    assert (W2 : a4 <= r * ln2 * (1 + 4 * eps)) by (unfold ln2, eps in *; lra).
    destruct (round_to_int_ok wild _ a4 I4) as (w & Ew & Ew2 & Ek). { unfold ln2, eps in *. rewrite Qabs_pos by lra. assert (E : (5000000000000000 # 1) <= 2 ^ 63 - 1) by (vm_compute; discriminate). lra. }
    eexists. split; [reflexivity|]. split; [exact D|]. split; [exact G8|]. split; [lra|]. split; [lra|]. exists w. split; [exact Ek|]. rewrite Ew2. auto.
  Qed.

  Theorem one_hash n fpr x v : is n x -> is (log fpr) (- v) -> 1 <= x -> x <= 1099511627776 # 1 -> 34657359028 # 100000000000 <= v -> v <= 1024 # 1 ->
    (1 <= snd (estimate log wild n fpr))%Z.
  Proof.
    intros Hn Hl X1 X2 V1 V2. destruct (estimate_spec n fpr x v Hn Hl X1 X2) as (m & k & -> & _ & _ & L & _ & w & -> & W & _); [lra|exact V2|]. cbn [snd].
    assert (P : (34657359028 # 100000000000) * x <= x * v) by (rewrite (Qmult_comm x v); apply Qmult_le_compat_r; lra).
    let k := eval vm_compute in (Qred (/ (ln2 * ln2))) in assert (Eil : / (ln2 * ln2) == k) by (vm_compute; reflexivity).
    unfold Qdiv at 1 in L. rewrite Eil in L.
    assert (R : (7213475204445 # 10000000000000) <= inject_Z m / x). { apply Qle_shift_div_l; [lra|]. unfold eps in L. lra. }
    assert (W' : 1 # 2 <= w) by (unfold ln2, eps in W; lra). change 1%Z with (round_away (1 # 2)). apply round_away_mono, W'.
  Qed.
  Theorem no_hash n fpr x v : is n x -> is (log fpr) (- v) -> 1 <= x -> x <= 1099511627776 # 1 -> 1 # 1099511627776 <= v -> x * v + (4084 # 1000) <= (34657359027 # 100000000000) * x ->
    snd (estimate log wild n fpr) = 0%Z.
  Proof.
    intros Hn Hl X1 X2 V1 V2. destruct (estimate_spec n fpr x v Hn Hl) as (m & k & -> & _ & G & _ & L & w & -> & W1 & W2); try lra.
    { destruct (Qlt_le_dec (1024 # 1) v) as [H|H]; [exfalso|exact H]. assert (P : (1024 # 1) * x <= x * v) by (rewrite (Qmult_comm x v); apply Qmult_le_compat_r; lra). lra. }
    cbn [snd].
    let k := eval vm_compute in (Qred (/ (ln2 * ln2))) in assert (Eil : / (ln2 * ln2) == k) by (vm_compute; reflexivity).
    unfold Qdiv at 1 in L. rewrite Eil in L.
    assert (G' : 8 # 1 <= inject_Z m) by (change (8 # 1) with (inject_Z 8); rewrite <- Zle_Qle; lia).
    assert (R : inject_Z m / x <= 72134752043 # 100000000000). { apply Qle_shift_div_r; [lra|]. unfold eps in L. lra. }
    assert (R0 : 0 <= inject_Z m / x). { apply Qle_shift_div_l; lra. }
    assert (A : 0 <= w) by (unfold ln2, eps in W1; lra). assert (B : w <= 49999999999 # 100000000000) by (unfold ln2, eps in W2; lra).
    apply Z.le_antisymm; [change 0%Z with (round_away (49999999999 # 100000000000)); apply round_away_mono, B|change 0%Z with (round_away 0); apply round_away_mono, A].
  Qed.
End Est.
