(** strconv.ParseFloat on all strings: words, and large exponents. *)
From Coq Require Import String QArith Qround Qpower Qabs Lqa.
From Verif Require Import Model.Base Model.Args Model.Float Model.Flags Proof.Tactics Proof.ArgsP Proof.FloatP Proof.NumeralP Proof.DecimalP Proof.FloatTextP Spec.Str Spec.Cmdline Spec.FloatText.
From Coq Require Import Lia.
Local Open Scope N_scope.
Local Open Scope list_scope.

(** ** Words *)
Lemma spelled_iff w t : Forall (fun d => d < 65 \/ 90 < d) (bs w) -> spelled w t <-> is_word_any_case t (bs w) = true.
Proof.
  unfold spelled, is_word_any_case. rewrite beq_iff. generalize (bs w). intros l F. revert t. induction F as [|d l Hd F IH]; intros t.
  - split; [intros H; inversion H; reflexivity|]. destruct t; [constructor|discriminate].
  - split.
    + intros H. inversion H as [|d' c l' t' A B]; subst. cbn [map]. f_equal; [|apply IH; exact B].
      destruct A as [->|[A1 A2]]; [replace ((65 <=? d) && (d <=? 90)) with false by lia; reflexivity|]. replace ((65 <=? c) && (c <=? 90)) with true by lia. exact A2.
    + destruct t as [|c t]; [discriminate|]. cbn [map]. intros [= A B]. constructor; [|apply IH; exact B].
      destruct ((65 <=? c) && (c <=? 90)) eqn:E; [right; lia|left; exact A].
Qed.
Lemma spelled_head w t d l : bs w = d :: l -> spelled w t -> hd 0 t = d \/ hd 0 t + 32 = d.
Proof. intros E H. unfold spelled in H. rewrite E in H. inversion H as [|d' c l' t' A B]; subst. cbn [hd]. destruct A as [->|[_ A]]; auto. Qed.
Lemma lowers l : forallb (fun d => (d <? 65) || (90 <? d)) l = true -> Forall (fun d => d < 65 \/ 90 < d) l.
Proof. intros H. apply Forall_forall. intros x I. pose proof (proj1 (forallb_forall _ _) H x I) as X. cbv beta in X. lia. Qed.
Lemma special_word s f : special_float s = Some f <-> float_word s f.
Proof.
  assert (I : forall t, is_word_any_case t (bs "inf") || is_word_any_case t (bs "infinity") = true <-> spelled "inf" t \/ spelled "infinity" t).
  { intros t. rewrite orb_true_iff, <- !spelled_iff by (apply lowers; reflexivity). reflexivity. }
  assert (Nn : forall t, is_word_any_case t (bs "nan") = true <-> spelled "nan" t) by (intros t; symmetry; apply spelled_iff, lowers; reflexivity).
  assert (Hd : forall t, spelled "inf" t \/ spelled "infinity" t -> hd 0 t = 105 \/ hd 0 t = 73).
  { intros t [H|H]; [apply (spelled_head _ _ 105 (bs "nf")) in H|apply (spelled_head _ _ 105 (bs "nfinity")) in H]; try reflexivity; lia. }
  assert (Hn : forall t, spelled "nan" t -> hd 0 t = 110 \/ hd 0 t = 78) by (intros t H; apply (spelled_head _ _ 110 (bs "an")) in H; [lia|reflexivity]).
  assert (E : special_float s = if is_word_any_case (drop_sign s) (bs "inf") || is_word_any_case (drop_sign s) (bs "infinity") then Some (Inf (neg_of s)) else if is_word_any_case s (bs "nan") then Some NaN else None).
  { destruct s as [|c s]; [reflexivity|]. destruct (N.eq_dec c 43) as [->|H1]; [cbn [drop_sign neg_of special_float]; change ((43 =? 43) || (43 =? 45)) with true; cbv iota|].
    - destruct (_ || _); [reflexivity|]. destruct (is_word_any_case (43 :: s) (bs "nan")) eqn:X; [|reflexivity]. apply Nn, Hn in X. cbn [hd] in X. lia.
    - destruct (N.eq_dec c 45) as [->|H2]; [cbn [drop_sign neg_of special_float]; change ((45 =? 43) || (45 =? 45)) with true; cbv iota|].
      + destruct (_ || _); [reflexivity|]. destruct (is_word_any_case (45 :: s) (bs "nan")) eqn:X; [|reflexivity]. apply Nn, Hn in X. cbn [hd] in X. lia.
      + cbn [drop_sign]. rewrite (proj2 (N.eqb_neq c 43) H1), (proj2 (N.eqb_neq c 45) H2). cbn [orb]. unfold neg_of, special_float. destruct c as [|c]; [reflexivity|]. do 6 (destruct c as [c|c|]; try reflexivity); contradiction. }
  rewrite E. clear E. split.
  - destruct (_ || _) eqn:X; [intros [= <-]; apply I in X; exact (fw_inf s _ _ (signed_drop s) X)|]. destruct (is_word_any_case s (bs "nan")) eqn:Y; [|discriminate]. intros [= <-]. apply Nn in Y. exact (fw_nan s Y).
  - intros [s' t neg Sg W|s' W].
    + destruct (drop_signed _ _ _ Sg) as [Ed En]; [destruct (Hd t W); lia|destruct (Hd t W); lia|]. rewrite Ed, En. apply I in W. rewrite W. reflexivity.
    + destruct (drop_signed s' s' false (s_none _)) as [Ed _]; [destruct (Hn _ W); lia|destruct (Hn _ W); lia|]. rewrite Ed.
      destruct (_ || _) eqn:X; [apply I, Hd in X; destruct X as [X|X]; destruct (Hn _ W) as [Y|Y]; pose proof (eq_trans (eq_sym X) Y); discriminate|]. apply Nn in W. rewrite W. reflexivity.
Qed.
Lemma number_no_word counted s q f : number counted s q -> float_word s f -> False.
Proof.
  intros Nm W. assert (Hd : hd 0 (drop_sign s) = 105 \/ hd 0 (drop_sign s) = 73 \/ hd 0 (drop_sign s) = 110 \/ hd 0 (drop_sign s) = 78).
  { destruct W as [s' t neg Sg W|s' W].
    - assert (hd 0 t = 105 \/ hd 0 t = 73) by (destruct W as [W|W]; [apply (spelled_head _ _ 105 (bs "nf")) in W|apply (spelled_head _ _ 105 (bs "nfinity")) in W]; try reflexivity; lia).
      destruct (drop_signed _ _ _ Sg) as [Ed _]; [lia|lia|]. rewrite Ed. lia.
    - apply (spelled_head _ _ 110 (bs "an")) in W; [|reflexivity]. destruct (drop_signed s' s' false (s_none _)) as [Ed _]; [lia|lia|]. rewrite Ed. lia. }
  destruct Nm as [s' neg b x m k e Sg Pt X|s' neg p u b x m k e Sg Hp Hu Pt X].
  - destruct (pointed_head _ _ _ _ x Pt) as (H1 & H2 & H3 & H4 & _). destruct (H4 ltac:(lia)) as (H5 & H6 & H7). destruct (drop_signed _ _ _ Sg H1 H2) as [Ed _]. rewrite Ed in Hd. lia.
  - destruct (drop_signed _ _ _ Sg) as [Ed _]; [discriminate|discriminate|]. rewrite Ed in Hd. cbn [hd] in Hd. lia.
Qed.
Theorem parse_float_all s f : parse_float s = Some f <-> float_word s f \/ exists q, number first_five s q /\ round64 q = f /\ forall b, f <> Inf b.
Proof.
  unfold parse_float. destruct (special_float s) as [g|] eqn:S.
  - apply special_word in S. split.
    + intros [= <-]. left. exact S.
    + intros [W|(q & Nm & _)]; [apply special_word in W, S; congruence|]. destruct (number_no_word _ _ _ _ Nm S).
  - split.
    + destruct (read_float s) as [q|] eqn:R; [|discriminate]. apply read_sound in R. destruct R as (q' & Nm & E). rewrite (round64_comp _ _ E). intros H. right. exists q'. split; [exact Nm|].
      destruct (round64 q') as [x|b|] eqn:Rd; try discriminate; injection H as <-; (split; [reflexivity|discriminate]).
    + intros [W|(q & Nm & <- & NI)]; [apply special_word in W; congruence|]. apply read_complete in Nm. destruct Nm as (q' & -> & E). rewrite <- (round64_comp _ _ E).
      destruct (round64 q) as [x|b|]; try reflexivity. destruct (NI b eq_refl).
Qed.

(** ** Numbers that are too large or too small *)
Lemma round_big neg x : (2 ^ 1024 <= x)%Q -> round_pos neg x = Inf neg.
Proof.
  intros L. assert (P : (0 < x)%Q) by (apply (Qlt_le_trans _ (2 ^ 1024)); [apply two_pos|exact L]).
  pose proof (qlog2_ge x 1024 P L) as K. destruct (qlog2_spec x P) as [A _]. unfold round_pos, last_digit. replace (Z.max (qlog2 x - 52) (-1074)) with (qlog2 x - 52)%Z by lia.
  set (k := qlog2 x) in *. clearbody k. set (e := (k - 52)%Z). unfold pack.
  assert (Y : (inject_Z (2 ^ 52) <= x / 2 ^ e)%Q).
  { apply Qle_shift_div_l; [apply two_pos|]. rewrite (two_Z 52) by lia. rewrite <- two_plus. replace (52 + e)%Z with k by lia. exact A. }
  assert (Fl : (2 ^ 52 <= Qfloor (x / 2 ^ e))%Z). { rewrite <- (Qfloor_Z (2 ^ 52)). apply Qfloor_resp_le. exact Y. }
  set (f := Qfloor (x / 2 ^ e)) in *. set (c := (x / 2 ^ e ?= inject_Z f + (1 # 2))%Q). clearbody f c.
  assert (Nf : (2 ^ 52 <= nearest f c)%Z) by (unfold nearest; destruct c; try destruct (Z.even f); lia).
  assert (G : Qle_bool (2 ^ 1024) (inject_Z (nearest f c) * 2 ^ e) = true).
  { apply Qle_bool_iff. apply (Qle_trans _ (2 ^ 52 * 2 ^ e)).
    - rewrite <- two_plus. apply two_mono. lia.
    - apply Qmult_le_compat_r; [|apply Qlt_le_weak, two_pos]. rewrite <- (two_Z 52) by lia. rewrite <- Zle_Qle. exact Nf. }
  rewrite G. reflexivity.
Qed.
Lemma round_small neg x : (0 < x)%Q -> (x < 2 ^ (-1075))%Q -> round_pos neg x = Fin 0.
Proof.
  intros P L. pose proof (qlog2_lt x (-1075) P L) as K. unfold round_pos, last_digit. replace (Z.max (qlog2 x - 52) (-1074)) with (-1074)%Z by lia.
  assert (Y : (x / 2 ^ (-1074) < 1 # 2)%Q).
  { apply Qlt_shift_div_r; [apply two_pos|]. apply (Qlt_le_trans _ _ _ L). change (-1074)%Z with (-1075 + 1)%Z. rewrite two_succ. clear. generalize (2 ^ (-1075))%Q. intros z. lra. }
  assert (Y0 : (0 <= x / 2 ^ (-1074))%Q). { apply Qle_shift_div_l; [apply two_pos|]. lra. }
  set (y := (x / 2 ^ (-1074))%Q) in *. clearbody y.
  assert (F : Qfloor y = 0%Z).
  { assert (0 <= Qfloor y)%Z by (rewrite <- (Qfloor_Z 0); apply Qfloor_resp_le; exact Y0). assert (Qfloor y < 1)%Z; [|lia]. rewrite Zlt_Qlt. pose proof (Qfloor_le y). change (inject_Z 1) with 1%Q. lra. }
  rewrite F. change (inject_Z 0) with 0%Q. assert (C : (y ?= 0 + (1 # 2))%Q = Lt).
  { apply Qlt_alt. rewrite Qplus_0_l. exact Y. }
  rewrite C. cbn [nearest]. destruct neg; vm_compute; reflexivity.
Qed.

(** ** Exponents of 100000 and more *)
Lemma digits_bound base w n : 0 < base -> digits base w n -> n < base ^ N.of_nat (ndigits w).
Proof.
  intros B D. assert (St : forall s n c d, digit c d -> d < base -> n < base ^ N.of_nat (ndigits s) -> n * base + d < base ^ N.of_nat (S (ndigits s))).
  { intros s n0 c d _ L H. rewrite Nat2N.inj_succ, N.pow_succ_r'. nia. }
  assert (C : forall c d, digit c d -> c <> 95) by (unfold digit; lia).
  induction D as [c d Dg L|s n c d G IH Dg L|s n c d G IH Dg L].
  - unfold ndigits. cbn [filter]. rewrite (proj2 (N.eqb_neq c 95) (C _ _ Dg)). cbn [negb List.length]. change (N.of_nat 1) with 1. rewrite N.pow_1_r. exact L.
  - replace (ndigits (s ++ [c])) with (S (ndigits s)); [exact (St _ _ _ _ Dg L IH)|]. unfold ndigits. rewrite filter_app, app_length. cbn [filter]. rewrite (proj2 (N.eqb_neq c 95) (C _ _ Dg)). cbn [negb List.length]. lia.
  - replace (ndigits (s ++ [95; c])) with (S (ndigits s)); [exact (St _ _ _ _ Dg L IH)|]. unfold ndigits. rewrite filter_app, app_length. cbn [filter]. change (95 =? 95) with true. cbn [negb]. rewrite (proj2 (N.eqb_neq c 95) (C _ _ Dg)). cbn [negb List.length]. lia.
Qed.
Lemma ndigits_le w : (ndigits w <= List.length w)%nat.
Proof. unfold ndigits. induction w as [|c w IH]; [reflexivity|]. cbn [filter]. destruct (negb (c =? 95)); cbn [List.length]; lia. Qed.
Lemma pointed_bound base b m k : 1 < base -> pointed base b m k -> m < base ^ N.of_nat (List.length b) /\ (k <= List.length b)%nat.
Proof.
  intros B P. assert (B0 : 0 < base) by lia. assert (Mo : forall a c, (a <= c)%nat -> base ^ N.of_nat a <= base ^ N.of_nat c) by (intros; apply N.pow_le_mono_r; lia).
  destruct P as [w n D|w n D|f n D|w f n m D E].
  - pose proof (digits_bound _ _ _ B0 D). pose proof (Mo _ _ (ndigits_le w)). lia.
  - pose proof (digits_bound _ _ _ B0 D). rewrite app_length. pose proof (ndigits_le w). pose proof (Mo (ndigits w) (List.length w + List.length (bs "."))%nat ltac:(lia)). lia.
  - pose proof (digits_bound _ _ _ B0 D). rewrite app_length. pose proof (ndigits_le f). pose proof (Mo (ndigits f) (List.length (bs ".") + List.length f)%nat ltac:(lia)). lia.
  - pose proof (digits_bound _ _ _ B0 D) as A1. pose proof (digits_bound _ _ _ B0 E) as A2. rewrite !app_length. pose proof (ndigits_le f). pose proof (ndigits_le w).
    pose proof (Mo (ndigits w + ndigits f)%nat (List.length w + (List.length (bs ".") + List.length f))%nat ltac:(lia)) as M. rewrite Nat2N.inj_add, N.pow_add_r in M. split; [|lia]. nia.
Qed.

Local Open Scope Z_scope.
Lemma pow_Q (B e : Z) : 0 <= e -> (inject_Z B ^ e == inject_Z (B ^ e))%Q.
Proof. intros H. rewrite Zpower_Qpower by exact H. reflexivity. Qed.
Lemma big_value B E m k e : 0 < B -> 0 <= k -> 0 <= e -> 2 ^ 1024 * B ^ k <= m * E ^ e ->
  (2 ^ 1024 <= inject_Z m * inject_Z B ^ (- k) * inject_Z E ^ e)%Q.
Proof.
  intros HB Hk He H. rewrite Qpower_opp, (pow_Q B k Hk), (pow_Q E e He). assert (P : (0 < inject_Z (B ^ k))%Q) by (change 0%Q with (inject_Z 0); rewrite <- Zlt_Qlt; apply Z.pow_pos_nonneg; lia).
  rewrite <- (two_Z 1024) by lia. rewrite Zle_Qle, !inject_Z_mult in H. set (b := inject_Z (B ^ k)) in *. set (u := inject_Z (2 ^ 1024)) in *. set (v := inject_Z (E ^ e)) in *. set (mm := inject_Z m) in *. clearbody b u v mm.
  setoid_replace (mm * / b * v)%Q with (mm * v / b)%Q by (unfold Qdiv; ring). apply Qle_shift_div_l; assumption.
Qed.
Lemma small_value B E m k a : 0 < B -> 0 < E -> 0 <= k -> 0 <= a -> m * 2 ^ 1075 < B ^ k * E ^ a ->
  (inject_Z m * inject_Z B ^ (- k) * inject_Z E ^ (- a) < 2 ^ (-1075))%Q.
Proof.
  intros HB HE Hk Ha H. rewrite !Qpower_opp, (pow_Q B k Hk), (pow_Q E a Ha). change (-1075) with (- (1075)). rewrite two_opp, <- (two_Z 1075) by lia.
  assert (P : forall x y, 0 < x -> 0 <= y -> (0 < inject_Z (x ^ y))%Q) by (intros; change 0%Q with (inject_Z 0); rewrite <- Zlt_Qlt; apply Z.pow_pos_nonneg; lia).
  pose proof (P B k HB Hk) as P1. pose proof (P E a HE Ha) as P2. pose proof (P 2 1075 ltac:(lia) ltac:(lia)) as P3. clear P.
  rewrite Zlt_Qlt, !inject_Z_mult in H. set (b := inject_Z (B ^ k)) in *. set (u := inject_Z (2 ^ 1075)) in *. set (v := inject_Z (E ^ a)) in *. set (mm := inject_Z m) in *. clearbody b u v mm.
  assert (P4 : (0 < b * v)%Q) by (rewrite <- (Qmult_0_r b); apply Qmult_lt_l; assumption).
  assert (E1 : (mm * / b * / v == mm / (b * v))%Q) by (field; split; intros Z; [rewrite Z in P2|rewrite Z in P1]; discriminate (Qlt_irrefl _ P2) || (eapply Qlt_irrefl; eassumption)).
  rewrite E1. apply Qlt_shift_div_r; [exact P4|]. rewrite Qmult_comm. change (/ u)%Q with (/ u)%Q. setoid_replace (b * v * / u)%Q with (b * v / u)%Q by reflexivity. apply Qlt_shift_div_l; assumption.
Qed.
Definition sgn (neg : bool) : Q := if neg then (-1)%Q else 1%Q.
Lemma r_big neg q x : (q == sgn neg * x)%Q -> (2 ^ 1024 <= x)%Q -> round64 q = Inf neg.
Proof.
  intros E L. pose proof (two_pos 1024) as P. unfold round64. pose proof (round_big neg) as R. generalize dependent (2 ^ 1024)%Q. intros u L P R.
  destruct neg; unfold sgn in E; destruct (Qcompare_spec q 0) as [C|C|C]; try (exfalso; lra); apply R; lra.
Qed.
Lemma r_small neg q x : (q == sgn neg * x)%Q -> (0 < x)%Q -> (x < 2 ^ (-1075))%Q -> round64 q = Fin 0.
Proof.
  intros E P L. unfold round64. pose proof round_small as R. generalize dependent (2 ^ (-1075))%Q. intros u L R.
  destruct neg; unfold sgn in E; destruct (Qcompare_spec q 0) as [C|C|C]; try reflexivity; try (exfalso; lra); apply R; lra.
Qed.
Definition far (e e' : Z) : Prop := e = e' \/ (10000 <= e /\ 10000 <= e') \/ (e <= -10000 /\ e' <= -10000).
Lemma far_same B E neg m k e e' : 0 < B -> 0 < E -> 0 <= k -> 0 <= m ->
  (forall e, 10000 <= e -> 2 ^ 1024 * B ^ k <= E ^ e) -> (forall a, 10000 <= a -> m * 2 ^ 1075 < B ^ k * E ^ a) -> far e e' ->
  round64 (sgn neg * inject_Z m * inject_Z B ^ (- k) * inject_Z E ^ e) = round64 (sgn neg * inject_Z m * inject_Z B ^ (- k) * inject_Z E ^ e').
Proof.
  intros HB HE Hk Hm Big Small F. destruct F as [->|F]; [reflexivity|]. destruct (Z.eq_dec m 0) as [->|M0].
  { apply round64_comp. change (inject_Z 0) with 0%Q. rewrite Qmult_0_r, !Qmult_0_l. reflexivity. }
  assert (As : forall f, (sgn neg * inject_Z m * inject_Z B ^ (- k) * inject_Z E ^ f == sgn neg * (inject_Z m * inject_Z B ^ (- k) * inject_Z E ^ f))%Q).
  { intros f. generalize (inject_Z B ^ (- k))%Q, (inject_Z E ^ f)%Q, (inject_Z m), (sgn neg). intros. ring. }
  destruct F as [[F1 F2]|[F1 F2]].
  - assert (R : forall f, 10000 <= f -> round64 (sgn neg * inject_Z m * inject_Z B ^ (- k) * inject_Z E ^ f) = Inf neg).
    { intros f Hf. apply (r_big neg _ _ (As f)). apply big_value; [exact HB|exact Hk|lia|]. apply (Z.le_trans _ _ _ (Big f Hf)). assert (0 < E ^ f) by (apply Z.pow_pos_nonneg; lia). nia. }
    rewrite (R e F1), (R e' F2). reflexivity.
  - assert (R : forall f, f <= -10000 -> round64 (sgn neg * inject_Z m * inject_Z B ^ (- k) * inject_Z E ^ f) = Fin 0).
    { intros f Hf. apply (r_small neg _ _ (As f)).
      - assert (P : forall x y, 0 < x -> (0 < inject_Z x ^ y)%Q) by (intros; apply Qpower_0_lt; change 0%Q with (inject_Z 0); rewrite <- Zlt_Qlt; assumption).
        pose proof (P B (- k) HB). pose proof (P E f HE). assert (0 < inject_Z m)%Q by (change 0%Q with (inject_Z 0); rewrite <- Zlt_Qlt; lia).
        rewrite <- (Qmult_0_r (inject_Z m * inject_Z B ^ (- k))). apply Qmult_lt_l; [|assumption]. rewrite <- (Qmult_0_r (inject_Z m)). apply Qmult_lt_l; assumption.
      - replace f with (- - f) by lia. apply small_value; [exact HB|exact HE|exact Hk|lia|]. apply Small. lia. }
    rewrite (R e F1), (R e' F2). reflexivity.
Qed.
Lemma dec_big k e : 0 <= k <= 2000 -> 10000 <= e -> 2 ^ 1024 * 10 ^ k <= 10 ^ e.
Proof.
  intros Hk He. apply (Z.le_trans _ (10 ^ 1024 * 10 ^ k)).
  - apply Z.mul_le_mono_nonneg_r; [apply Z.pow_nonneg; lia|]. apply Z.pow_le_mono_l. lia.
  - rewrite <- Z.pow_add_r by lia. apply Z.pow_le_mono_r; lia.
Qed.
Lemma dec_small m k a : 0 <= k -> m < 10 ^ 2000 -> 10000 <= a -> m * 2 ^ 1075 < 10 ^ k * 10 ^ a.
Proof.
  intros Hk Hm Ha. apply (Z.lt_le_trans _ (10 ^ 2000 * 2 ^ 1075)).
  - apply Z.mul_lt_mono_pos_r; [apply Z.pow_pos_nonneg; lia|exact Hm].
  - apply (Z.le_trans _ (10 ^ 2000 * 10 ^ 1075)).
    + apply Z.mul_le_mono_nonneg_l; [apply Z.pow_nonneg; lia|]. apply Z.pow_le_mono_l. lia.
    + rewrite <- !Z.pow_add_r by lia. apply Z.pow_le_mono_r; lia.
Qed.
Lemma hex_big k e : 0 <= k <= 2000 -> 10000 <= e -> 2 ^ 1024 * 16 ^ k <= 2 ^ e.
Proof. intros Hk He. change 16 with (2 ^ 4). rewrite <- Z.pow_mul_r, <- Z.pow_add_r by lia. apply Z.pow_le_mono_r; lia. Qed.
Lemma hex_small m k a : 0 <= k -> m < 16 ^ 2000 -> 10000 <= a -> m * 2 ^ 1075 < 16 ^ k * 2 ^ a.
Proof.
  intros Hk Hm Ha. apply (Z.lt_le_trans _ (16 ^ 2000 * 2 ^ 1075)).
  - apply Z.mul_lt_mono_pos_r; [apply Z.pow_pos_nonneg; lia|exact Hm].
  - change 16 with (2 ^ 4). rewrite <- !Z.pow_mul_r, <- !Z.pow_add_r by lia. apply Z.pow_le_mono_r; lia.
Qed.
Definition near (c1 c2 : N -> N -> Prop) : Prop := forall n x, c1 n x -> exists y, c2 n y /\ (x = y \/ (10000 <= x)%N /\ (10000 <= y)%N).
Lemma exponent_change c1 c2 l x e : near c1 c2 -> exponent_text c1 l x e -> exists e', exponent_text c2 l x e' /\ far e e'.
Proof.
  intros Nr [c u ds neg n y I Sg D C]. destruct (Nr _ _ C) as (z & C2 & H). eexists. split; [exact (x_intro c2 l c u ds neg n z I Sg D C2)|].
  unfold far. destruct H as [->|[H1 H2]]; [left; reflexivity|]. right. destruct neg; lia.
Qed.
Lemma signed_length s t neg : signed s t neg -> (List.length t <= List.length s)%nat.
Proof. intros [t'|t'|t']; [lia|cbn; lia|cbn; lia]. Qed.
Lemma pow_bound (B : N) m (b : bytes) : (1 < B)%N -> (m < B ^ N.of_nat (List.length b))%N -> (List.length b <= 2000)%nat -> Z.of_N m < Z.of_N B ^ 2000.
Proof.
  intros HB H L. change 2000 with (Z.of_N 2000). rewrite <- N2Z.inj_pow. apply N2Z.inj_lt. apply (N.lt_le_trans _ _ _ H). apply N.pow_le_mono_r; lia.
Qed.
Lemma number_change c1 c2 s q : near c1 c2 -> (List.length s <= 2000)%nat -> number c1 s q -> exists q', number c2 s q' /\ round64 q = round64 q'.
Proof.
  intros Nr L Nm. revert L. destruct Nm as [s' neg b x m k e Sg Pt X|s' neg p u b x m k e Sg Hp Hu Pt X]; intros L.
  - assert (X' : exists e', (x = [] /\ e' = 0 \/ exponent_text c2 (bs "eE") x e') /\ far e e').
    { destruct X as [[-> ->]|X]; [exists 0; split; [left; split; reflexivity|left; reflexivity]|]. destruct (exponent_change c1 c2 _ _ _ Nr X) as (e' & A & B). eauto. }
    destruct X' as (e' & X' & F). eexists. split; [exact (num_decimal c2 s' neg b x m k e' Sg Pt X')|].
    destruct (pointed_bound 10 _ _ _ ltac:(reflexivity) Pt) as [Bm Bk]. pose proof (signed_length _ _ _ Sg) as L1. rewrite app_length in L1.
    pose proof (pow_bound 10 m b ltac:(reflexivity) Bm ltac:(lia)) as Bz. change (Z.of_N 10) with 10 in Bz.
    apply (far_same 10 10 neg (Z.of_N m) (Z.of_nat k) e e'); [reflexivity|reflexivity|lia|lia| | |exact F].
    + intros f Hf. apply dec_big; [lia|exact Hf].
    + intros a Ha. apply dec_small; [lia|exact Bz|exact Ha].
  - destruct (exponent_change c1 c2 _ _ _ Nr X) as (e' & X' & F). eexists. split; [exact (num_hex c2 s' neg p u b x m k e' Sg Hp Hu Pt X')|].
    destruct (pointed_bound 16 _ _ _ ltac:(reflexivity) Pt) as [Bm Bk]. pose proof (signed_length _ _ _ Sg) as L1. cbn [List.length] in L1. rewrite !app_length in L1.
    pose proof (pow_bound 16 m b ltac:(reflexivity) Bm ltac:(lia)) as Bz. change (Z.of_N 16) with 16 in Bz.
    apply (far_same 16 2 neg (Z.of_N m) (Z.of_nat k) e e'); [reflexivity|reflexivity|lia|lia| | |exact F].
    + intros f Hf. apply hex_big; [lia|exact Hf].
    + intros a Ha. apply hex_small; [lia|exact Bz|exact Ha].
Qed.
Lemma first_five_total n : exists x, first_five n x.
Proof.
  induction n as [n IH] using (well_founded_induction N.lt_wf_0). destruct (N.lt_ge_cases n 100000) as [H|H]; [exists n; left; auto|].
  assert (Dm : (n / 10 < n)%N) by (apply N.div_lt; lia). destruct (N.lt_ge_cases (n / 10) 100000) as [H1|H1].
  - exists (n / 10)%N. right. exists 1%N. rewrite N.pow_1_r. split; [reflexivity|]. split; [|exact H]. split; [|exact H1]. apply N.div_le_lower_bound; lia.
  - destruct (IH (n / 10)%N Dm) as (x & [[A _]|(k & -> & B & _)]); [lia|]. exists (n / 10 / 10 ^ k)%N. right. exists (N.succ k). split; [|split; [exact B|exact H]].
    rewrite N.pow_succ_r', N.div_div; [reflexivity|lia|apply N.pow_nonzero; lia].
Qed.
Theorem parse_float_short s f : (List.length s <= 2000)%nat ->
  parse_float s = Some f <-> float_word s f \/ exists q, number eq s q /\ round64 q = f /\ forall b, f <> Inf b.
Proof.
  intros L. rewrite parse_float_all. assert (N1 : near first_five eq).
  { intros n x H. exists n. split; [reflexivity|]. destruct H as [[_ ->]|(k & _ & B & H)]; [auto|right; lia]. }
  assert (N2 : near eq first_five).
  { intros n x <-. destruct (first_five_total n) as [y H]. exists y. split; [exact H|]. destruct H as [[_ ->]|(k & _ & B & H)]; [auto|right; lia]. }
  split; (intros [W|(q & Nm & R & NI)]; [left; exact W|right]).
  - destruct (number_change _ _ _ _ N1 L Nm) as (q' & Nm' & E). exists q'. rewrite <- E. auto.
  - destruct (number_change _ _ _ _ N2 L Nm) as (q' & Nm' & E). exists q'. rewrite <- E. auto.
Qed.

(** ** Longer strings *)
Definition long_one (n : nat) : bytes := bs "0" ++ bs "." ++ (repeat 48%N n ++ [49%N]) ++ bs "e100001".
Lemma zeros_one n : digits 10 (repeat 48%N n ++ [49%N]) 1 /\ ndigits (repeat 48%N n ++ [49%N]) = S n.
Proof.
  assert (D : forall c, (48 <= c <= 57)%N -> digit c (c - 48)) by (unfold digit; lia).
  assert (Z0 : forall i, digits 10 (repeat 48%N (S i)) 0).
  { induction i as [|i IH]; [apply (d_one 10 48 0); [apply (D 48%N); lia|lia]|]. replace (repeat 48%N (S (S i))) with (repeat 48%N (S i) ++ [48%N]) by (symmetry; apply repeat_cons).
    apply (d_more 10 _ 0 48 0 IH); [apply (D 48%N); lia|lia]. }
  split.
  - destruct n as [|n]; [apply (d_one 10 49 1); [apply (D 49%N); lia|lia]|]. apply (d_more 10 _ 0 49 1 (Z0 n)); [apply (D 49%N); lia|lia].
  - unfold ndigits. rewrite filter_app, app_length. cbn [filter]. change (negb (49 =? 95)%N) with true. cbn [List.length]. replace (filter (fun c => negb (c =? 95)%N) (repeat 48%N n)) with (repeat 48%N n); [rewrite repeat_length; lia|].
    induction n as [|n IH]; [reflexivity|]. cbn [repeat filter]. change (negb (48 =? 95)%N) with true. cbv iota. f_equal. exact IH.
Qed.
Lemma long_one_number (counted : N -> N -> Prop) n x : counted 100001%N x -> number counted (long_one n) (1 * inject_Z 1 * inject_Z 10 ^ (- Z.of_nat (S n)) * inject_Z 10 ^ Z.of_N x).
Proof.
  intros C. destruct (zeros_one n) as [Dg Nd].
  assert (D : forall c, (48 <= c <= 57)%N -> digit c (c - 48)) by (unfold digit; lia).
  assert (E : digits 10 (bs "100001") 100001).
  { apply (d_more 10 (bs "10000") 10000 49 1); [|apply (D 49%N); lia|lia]. apply (d_more 10 (bs "1000") 1000 48 0); [|apply (D 48%N); lia|lia]. apply (d_more 10 (bs "100") 100 48 0); [|apply (D 48%N); lia|lia].
    apply (d_more 10 (bs "10") 10 48 0); [|apply (D 48%N); lia|lia]. apply (d_more 10 (bs "1") 1 48 0); [|apply (D 48%N); lia|lia]. apply (d_one 10 49 1); [apply (D 49%N); lia|lia]. }
  assert (Z0 : digits 10 (bs "0") 0) by (apply (d_one 10 48 0); [apply (D 48%N); lia|lia]).
  pose proof (p_both 10 _ _ _ _ Z0 Dg) as P. rewrite Nd in P. rewrite N.mul_0_l, N.add_0_l in P.
  assert (X : exponent_text counted (bs "eE") (bs "e100001") (Z.of_N x)) by (apply (x_intro counted (bs "eE") 101 (bs "100001") (bs "100001") false 100001 x); [left; reflexivity|apply s_none|exact E|exact C]).
  assert (Sg : signed (long_one n) ((bs "0" ++ bs "." ++ repeat 48%N n ++ [49%N]) ++ bs "e100001") false).
  { replace (long_one n) with ((bs "0" ++ bs "." ++ repeat 48%N n ++ [49%N]) ++ bs "e100001"); [apply s_none|]. unfold long_one. rewrite <- !app_assoc. reflexivity. }
  exact (num_decimal counted _ false _ _ _ _ _ Sg P (or_intror X)).
Qed.
Lemma long_one_wrong n : Z.of_nat n = 100000 -> parse_float (long_one n) = Some (Fin 0) /\ exists q, number eq (long_one n) q /\ (q == 1)%Q.
Proof.
  intros Hn. split.
  - apply parse_float_all. right. eexists. split; [apply (long_one_number first_five n 10000); right; exists 1%N; split; [reflexivity|lia]|].
    split; [|discriminate]. rewrite (Nat2Z.inj_succ n), Hn. change (Z.succ 100000) with 100001. change (Z.of_N 10000) with 10000.
    apply (r_small false _ (inject_Z 1 * inject_Z 10 ^ (- (0)) * inject_Z 10 ^ (- (90001)))).
    + change (inject_Z 10 ^ (- (0)))%Q with 1%Q. change (sgn false) with 1%Q. replace (- (90001)) with (- (100001) + 10000) by reflexivity.
      rewrite (Qpower_plus (inject_Z 10) (- (100001)) 10000) by discriminate. generalize (inject_Z 10 ^ (- (100001)))%Q, (inject_Z 10 ^ 10000)%Q. intros. change (inject_Z 1) with 1%Q. ring.
    + change (inject_Z 10 ^ (- (0)))%Q with 1%Q. change (inject_Z 1 * 1)%Q with 1%Q. rewrite Qmult_1_l. apply Qpower_0_lt. reflexivity.
    + apply small_value; [reflexivity|reflexivity|lia|lia|]. apply dec_small; [lia| |lia]. apply (Z.lt_le_trans _ (10 ^ 1)); [reflexivity|apply Z.pow_le_mono_r; lia].
  - eexists. split; [exact (long_one_number eq n 100001 eq_refl)|]. rewrite (Nat2Z.inj_succ n), Hn. change (Z.succ 100000) with 100001. change (Z.of_N 100001) with 100001.
    rewrite <- Qmult_assoc, <- (Qpower_plus (inject_Z 10)) by discriminate. change (- (100001) + 100001) with 0. reflexivity.
Qed.
