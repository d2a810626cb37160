(** The finite numbers of IEEE 754's binary64, and rounding to the nearest of them. *)
From Coq Require Import QArith Qabs Qpower Lia.
Local Open Scope Q_scope.

Definition double (x : Q) : Prop :=
  exists m e, x == inject_Z m * 2 ^ e /\ (Z.abs m < 2 ^ 53)%Z /\ (-1074 <= e <= 971)%Z.
(** With an even significand, when as many digits as possible are used. *)
Definition even_double (x : Q) : Prop :=
  exists m e, x == inject_Z m * 2 ^ e /\ (Z.abs m < 2 ^ 53)%Z /\ (-1074 <= e <= 971)%Z /\
    Z.even m = true /\ (2 ^ 52 <= Z.abs m \/ e = -1074)%Z.
(** [y] is the number nearest to [x]; of two it is the even one. *)
Definition rounded (x y : Q) : Prop :=
  double y /\ forall z, double z -> ~ z == y -> Qabs (y - x) < Qabs (z - x) \/ Qabs (y - x) == Qabs (z - x) /\ even_double y.
(** Conversion of [x] to the number [y]. Numbers from the middle between the greatest number and
    the next power of two on become infinite. *)
Definition converted (x y : Q) : Prop := Qabs x < 2 ^ 1024 - 2 ^ 970 /\ rounded x y.

Example double_tenth : double (3602879701896397 # 36028797018963968).
Proof. exists 3602879701896397%Z, (-55)%Z. repeat split; discriminate. Qed.
Lemma five_pow n : (0 <= n)%Z -> (2 ^ n mod 5 <> 0)%Z.
Proof.
  intros H. pattern n. apply natlike_ind; [discriminate| |exact H]. intros k Hk IH. rewrite Z.pow_succ_r by exact Hk.
  rewrite Z.mul_mod by discriminate. generalize (Z.mod_pos_bound (2 ^ k) 5 eq_refl). generalize dependent (2 ^ k mod 5)%Z. intros r Hr B.
  assert (r = 1 \/ r = 2 \/ r = 3 \/ r = 4)%Z as [-> | [-> | [-> | ->]]] by lia; discriminate.
Qed.
Example no_double_tenth : ~ double (1 # 10).
Proof.
  intros (m & e & E & _ & _). destruct (Z.le_gt_cases 0 e) as [L|L].
  - change (2 ^ e) with (inject_Z 2 ^ e) in E. rewrite <- Zpower_Qpower, <- inject_Z_mult in E by exact L.
    unfold Qeq in E. cbn [inject_Z Qnum Qden] in E. lia.
  - assert (E' : inject_Z (2 ^ (- e)) == inject_Z (10 * m)).
    { rewrite Zpower_Qpower by lia. change (inject_Z 2) with 2. rewrite Qpower_opp, inject_Z_mult.
      assert (P : ~ 2 ^ e == 0) by (apply Qpower_not_0; discriminate).
      setoid_replace (inject_Z m) with ((inject_Z m * 2 ^ e) / 2 ^ e) by (field; exact P). rewrite <- E. change (inject_Z 10) with 10. field. exact P. }
    unfold Qeq in E'. cbn [inject_Z Qnum Qden] in E'. apply (five_pow (- e)); [lia|].
    replace (2 ^ (- e))%Z with (2 * m * 5)%Z by lia. apply Z.mod_mul. discriminate.
Qed.

(** [y] is a number nearest to the square root of [x]: the root is on its side of the middle
    between [y] and any other number. *)
Definition rounded_root (x y : Q) : Prop :=
  double y /\ 0 <= y /\ forall z, double z -> 0 <= z ->
    (y < z -> x <= ((y + z) / 2) * ((y + z) / 2)) /\ (z < y -> ((y + z) / 2) * ((y + z) / 2) <= x).
