From Verif Require Import Model.Base Model.Varint Model.Post Proof.Tactics.
Local Open Scope N_scope.

(** * Bit lemmas *)

Lemma testbit_small x s m : x < 2 ^ s -> s <= m -> N.testbit x m = false.
Proof.
  intros H Hm. destruct (N.eq_dec x 0) as [->|Hx]; [apply N.bits_0|].
  apply N.bits_above_log2. apply N.log2_lt_pow2 in H; lia.
Qed.

Lemma lor_shiftl_add x b s : x < 2 ^ s -> N.lor x (N.shiftl b s) = x + b * 2 ^ s.
Proof.
  intros H.
  assert (Hl : N.land x (N.shiftl b s) = 0).
  { apply N.bits_inj. intros m. rewrite N.land_spec, N.bits_0.
    destruct (N.lt_ge_cases m s).
    - rewrite N.shiftl_spec_low by assumption. apply andb_false_r.
    - rewrite (testbit_small x s) by assumption. reflexivity. }
  rewrite <- N.lxor_lor by assumption.
  rewrite <- N.add_nocarry_lxor by assumption.
  rewrite N.shiftl_mul_pow2. reflexivity.
Qed.

Lemma land127 b : N.land b 127 = b mod 128.
Proof. change 127 with (N.ones 7). rewrite N.land_ones. reflexivity. Qed.

Lemma lor128_sweep : forallb (fun y => N.lor y 128 =? 128 + y mod 128)
                       (map N.of_nat (seq 0 256)) = true.
Proof. vm_compute. reflexivity. Qed.

Lemma lor128 y : y < 256 -> N.lor y 128 = 128 + y mod 128.
Proof.
  intros H. apply N.eqb_eq.
  assert (Hin : In y (map N.of_nat (seq 0 256))).
  { apply in_map_iff. exists (N.to_nat y). split; [lia|]. apply in_seq. lia. }
  exact (proj1 (forallb_forall _ _) lor128_sweep _ Hin).
Qed.

Lemma enc_byte x : N.lor (u8 x) 128 = 128 + x mod 128.
Proof. unfold u8. rewrite lor128; lia. Qed.

(** * PutUvarint *)

Lemma put_uvarint_len_aux k x : (length (put_uvarint_aux k x) <= k)%nat.
Proof. revert x; induction k as [|k IH]; intros x; simpl; [lia|]. destruct (128 <=? x); simpl; [specialize (IH (N.shiftr x 7))|]; lia. Qed.

Lemma put_uvarint_len x : (length (put_uvarint x) <= 10)%nat.
Proof. apply put_uvarint_len_aux. Qed.

Lemma put_uvarint_nonempty_aux k x : (1 <= length (put_uvarint_aux (S k) x))%nat.
Proof. cbn [put_uvarint_aux]. destruct (128 <=? x); cbn [length]; lia. Qed.

Lemma put_uvarint_nonempty x : (1 <= length (put_uvarint x))%nat.
Proof. apply (put_uvarint_nonempty_aux 9). Qed.

Lemma shiftr7 x : N.shiftr x 7 = x / 128.
Proof. rewrite N.shiftr_div_pow2. reflexivity. Qed.

Lemma put_uvarint_len_pow n k x : x < 2 ^ (7 * N.of_nat (S n)) -> (length (put_uvarint_aux k x) <= S n)%nat.
Proof.
  revert k x; induction n as [|n IH]; intros k x H.
  - destruct k as [|k]; simpl; [lia|]. change (7 * N.of_nat 1) with 7 in H. change (2^7) with 128 in H.
    destruct (128 <=? x) eqn:E; simpl; lia.
  - destruct k as [|k]; simpl; [lia|].
    destruct (128 <=? x) eqn:E; simpl; [|lia].
    assert (length (put_uvarint_aux k (N.shiftr x 7)) <= S n)%nat; [|lia].
    apply IH. rewrite shiftr7.
    replace (7 * N.of_nat (S (S n))) with (7 + 7 * N.of_nat (S n)) in H by lia.
    rewrite N.pow_add_r in H. change (2^7) with 128 in H.
    apply N.div_lt_upper_bound; lia.
Qed.

Lemma put_uvarint_len32 x : x < 4294967296 -> (length (put_uvarint x) <= 5)%nat.
Proof.
  intros H. apply (put_uvarint_len_pow 4). change (2 ^ (7 * N.of_nat 5)) with 34359738368. lia.
Qed.

Lemma put_uvarint_bytes_aux k x : Forall (fun b => b < 256) (put_uvarint_aux k x).
Proof.
  revert x; induction k as [|k IH]; intros x; simpl; [constructor|].
  destruct (128 <=? x); [rewrite enc_byte|unfold u8]; constructor; auto; lia.
Qed.

Lemma put_uvarint_bytes x : Forall (fun b => b < 256) (put_uvarint x).
Proof. apply put_uvarint_bytes_aux. Qed.

(** The step both decoders take on one byte. *)
Lemma u64_shiftl_small b s : b * 2 ^ s < 18446744073709551616 -> u64 (N.shiftl b s) = N.shiftl b s.
Proof. intros H. unfold u64. rewrite N.shiftl_mul_pow2. apply N.mod_small. exact H. Qed.

Lemma acc_step acc b s : acc < 2 ^ s -> b * 2 ^ s < 18446744073709551616 ->
  N.lor acc (u64 (N.shiftl b s)) = acc + b * 2 ^ s.
Proof. intros. rewrite u64_shiftl_small by assumption. apply lor_shiftl_add; assumption. Qed.

Lemma pow7_pos i : 1 <= 2 ^ (7 * N.of_nat i).
Proof. assert (2 ^ (7 * N.of_nat i) <> 0) by (apply N.pow_nonzero; lia). lia. Qed.

Lemma pow7_S i : 2 ^ (7 * N.of_nat (S i)) = 128 * 2 ^ (7 * N.of_nat i).
Proof. replace (7 * N.of_nat (S i)) with (7 + 7 * N.of_nat i) by lia. rewrite N.pow_add_r. reflexivity. Qed.

Lemma uvarint_put_aux k : forall i x acc rest,
  (i + k = 10)%nat -> (1 <= k)%nat ->
  acc < 2 ^ (7 * N.of_nat i) -> x * 2 ^ (7 * N.of_nat i) < 18446744073709551616 ->
  uvarint_aux (put_uvarint_aux k x ++ rest) i acc (7 * N.of_nat i) =
  (acc + x * 2 ^ (7 * N.of_nat i), Z.of_nat (i + length (put_uvarint_aux k x))).
Proof.
  induction k as [|k IH]; intros i x acc rest Hik Hk Ha Hx; [lia|].
  cbn [put_uvarint_aux]. destruct (128 <=? x) eqn:E.
  - rewrite enc_byte. cbn [app uvarint_aux length].
    assert (Hnot : (128 + x mod 128 <? 128) = false) by lia. rewrite Hnot.
    assert (Hb : N.land (128 + x mod 128) 127 = x mod 128) by (rewrite land127; lia).
    rewrite Hb.
    assert (Hi : (i <= 8)%nat).
    { destruct (Nat.leb_spec i 8); [assumption|]. assert (i = 9%nat) by lia. subst i.
      change (2 ^ (7 * N.of_nat 9)) with 9223372036854775808 in Hx. lia. }
    pose proof (pow7_pos i) as Hp.
    assert (Hdm : x = 128 * (x / 128) + x mod 128) by (apply N.div_mod; lia).
    rewrite acc_step; [|assumption|].
    2:{ eapply N.le_lt_trans; [|exact Hx]. apply N.mul_le_mono_r. apply N.mod_le. lia. }
    rewrite shiftr7.
    replace (7 * N.of_nat i + 7) with (7 * N.of_nat (S i)) by lia.
    rewrite IH; [|lia|lia| |].
    + rewrite pow7_S. f_equal; [|lia].
      rewrite Hdm at 3. ring.
    + rewrite pow7_S. assert (x mod 128 < 128) by lia. nia.
    + rewrite pow7_S. eapply N.le_lt_trans; [|exact Hx].
      rewrite N.mul_assoc. apply N.mul_le_mono_r. lia.
  - cbn [app uvarint_aux length]. unfold u8. rewrite N.mod_small by lia.
    assert (Hlt : (x <? 128) = true) by lia. rewrite Hlt.
    assert (Ho : (max_varint_len64 <=? i)%nat || ((i =? max_varint_len64 - 1)%nat && (1 <? x)) = false).
    { unfold max_varint_len64. change (10 - 1)%nat with 9%nat. apply orb_false_iff. split; [lia|]. destruct (Nat.eqb_spec i 9) as [->|]; [|reflexivity].
      change (2 ^ (7 * N.of_nat 9)) with 9223372036854775808 in Hx. simpl. lia. }
    rewrite Ho.
    rewrite acc_step by assumption. f_equal. lia.
Qed.

Lemma uvarint_put x rest : x < 18446744073709551616 ->
  uvarint (put_uvarint x ++ rest) = (x, Z.of_nat (length (put_uvarint x))).
Proof.
  intros H. unfold uvarint, put_uvarint.
  pose proof (uvarint_put_aux max_varint_len64 0 x 0 rest) as P.
  change (7 * N.of_nat 0) with 0 in P. change (2 ^ 0) with 1 in P.
  rewrite P; [f_equal; lia|reflexivity|unfold max_varint_len64; lia|lia|lia].
Qed.

Lemma read_uvarint_put_aux k : forall i x acc rest,
  (i + k = 10)%nat -> (1 <= k)%nat ->
  acc < 2 ^ (7 * N.of_nat i) -> x * 2 ^ (7 * N.of_nat i) < 18446744073709551616 ->
  read_uvarint_aux k (put_uvarint_aux k x ++ rest) acc (7 * N.of_nat i) =
  Ok (acc + x * 2 ^ (7 * N.of_nat i), rest).
Proof.
  induction k as [|k IH]; intros i x acc rest Hik Hk Ha Hx; [lia|].
  simpl. destruct (128 <=? x) eqn:E.
  - rewrite enc_byte. simpl.
    assert (Hnot : (128 + x mod 128 <? 128) = false) by lia. rewrite Hnot.
    assert (Hb : N.land (128 + x mod 128) 127 = x mod 128) by (rewrite land127; lia).
    rewrite Hb.
    assert (Hi : (i <= 8)%nat).
    { destruct (Nat.leb_spec i 8); [assumption|]. assert (i = 9%nat) by lia. subst i.
      change (2 ^ (7 * N.of_nat 9)) with 9223372036854775808 in Hx. lia. }
    pose proof (pow7_pos i) as Hp.
    assert (Hdm : x = 128 * (x / 128) + x mod 128) by (apply N.div_mod; lia).
    rewrite acc_step; [|assumption|].
    2:{ eapply N.le_lt_trans; [|exact Hx]. apply N.mul_le_mono_r. apply N.mod_le. lia. }
    rewrite shiftr7.
    replace (7 * N.of_nat i + 7) with (7 * N.of_nat (S i)) by lia.
    rewrite IH; [|lia|lia| |].
    + rewrite pow7_S. do 2 f_equal.
      rewrite Hdm at 3. ring.
    + rewrite pow7_S. assert (x mod 128 < 128) by lia. nia.
    + rewrite pow7_S. eapply N.le_lt_trans; [|exact Hx].
      rewrite N.mul_assoc. apply N.mul_le_mono_r. lia.
  - simpl. unfold u8. rewrite N.mod_small by lia.
    assert (Hlt : (x <? 128) = true) by lia. rewrite Hlt.
    assert (Ho : ((k =? 0)%nat && (1 <? x)) = false).
    { destruct (Nat.eqb_spec k 0) as [->|]; [|reflexivity]. assert (i = 9%nat) by lia. subst i.
      change (2 ^ (7 * N.of_nat 9)) with 9223372036854775808 in Hx. simpl. lia. }
    rewrite Ho. rewrite acc_step by assumption. reflexivity.
Qed.

Lemma read_uvarint_put x rest : x < 18446744073709551616 ->
  read_uvarint (put_uvarint x ++ rest) = Ok (x, rest).
Proof.
  intros H. unfold read_uvarint, put_uvarint.
  pose proof (read_uvarint_put_aux max_varint_len64 0 x 0 rest) as P.
  change (7 * N.of_nat 0) with 0 in P. change (2 ^ 0) with 1 in P.
  rewrite P; [do 2 f_equal; lia|reflexivity|unfold max_varint_len64; lia|lia|lia].
Qed.

(** Every strict prefix of an encoding is rejected with end-of-input. *)
Lemma read_uvarint_prefix_aux k : forall x acc s n,
  (n < length (put_uvarint_aux k x))%nat ->
  read_uvarint_aux k (firstn n (put_uvarint_aux k x)) acc s = Err EOF.
Proof.
  induction k as [|k IH]; intros x acc s n H; simpl in *; [lia|].
  destruct (128 <=? x) eqn:E.
  - rewrite enc_byte in *. destruct n as [|n]; [reflexivity|]. simpl in *.
    assert (Hnot : (128 + x mod 128 <? 128) = false) by lia. rewrite Hnot.
    apply IH. lia.
  - simpl in H. destruct n; [reflexivity|lia].
Qed.

Lemma read_uvarint_prefix x n : (n < length (put_uvarint x))%nat ->
  read_uvarint (firstn n (put_uvarint x)) = Err EOF.
Proof. apply read_uvarint_prefix_aux. Qed.

(** All bytes but the last have the continuation bit; the last has not. *)
Lemma put_uvarint_shape_aux k x : (1 <= k)%nat -> x < 2 ^ (7 * N.of_nat k) ->
  exists l b, put_uvarint_aux k x = l ++ [b] /\ b < 128 /\ Forall (fun c => 128 <= c) l.
Proof.
  revert x; induction k as [|k IH]; intros x Hk Hx; [lia|]. simpl.
  destruct (128 <=? x) eqn:E.
  - destruct k as [|k].
    { change (2 ^ (7 * N.of_nat 1)) with 128 in Hx. lia. }
    destruct (IH (N.shiftr x 7)) as (l & b & Hl & Hb & HF); [lia| |].
    { rewrite shiftr7. rewrite (pow7_S (S k)) in Hx. apply N.div_lt_upper_bound; lia. }
    exists (N.lor (u8 x) 128 :: l), b. rewrite Hl. split; [reflexivity|]. split; [assumption|].
    constructor; [rewrite enc_byte; lia|assumption].
  - exists [], (u8 x). split; [reflexivity|]. split; [unfold u8; lia|constructor].
Qed.

Lemma put_uvarint_shape x : x < 18446744073709551616 ->
  exists l b, put_uvarint x = l ++ [b] /\ b < 128 /\ Forall (fun c => 128 <= c) l.
Proof.
  intros H. apply put_uvarint_shape_aux; [unfold max_varint_len64; lia|].
  eapply N.lt_trans; [exact H|]. vm_compute. reflexivity.
Qed.

(** * Zig-zag *)

Lemma lxor_ones64 x : x < 18446744073709551616 ->
  N.lxor x 18446744073709551615 = 18446744073709551615 - x.
Proof.
  intros H. destruct (N.eq_dec x 0) as [->|Hx].
  - rewrite N.lxor_0_l. reflexivity.
  - change 18446744073709551615 with (N.ones 64).
    change (N.lxor x (N.ones 64)) with (N.lnot x 64).
    apply N.lnot_sub_low. apply N.log2_lt_pow2; [lia|]. exact H.
Qed.

Lemma zigzag_nonneg z : (0 <= z < 9223372036854775808)%Z -> zigzag z = 2 * Z.to_N z.
Proof.
  intros H. unfold zigzag, u64, u64_of_i64.
  rewrite N.shiftl_mul_pow2. change (2 ^ 1) with 2.
  destruct (z <? 0)%Z eqn:E; [lia|].
  rewrite Z.mod_small by lia. rewrite N.mod_small; lia.
Qed.

Lemma zigzag_neg z : (-9223372036854775808 <= z < 0)%Z -> zigzag z = 2 * Z.to_N (- z) - 1.
Proof.
  intros H. unfold zigzag, u64_of_i64.
  rewrite N.shiftl_mul_pow2. change (2 ^ 1) with 2.
  destruct (z <? 0)%Z eqn:E; [|lia].
  replace (z mod 18446744073709551616)%Z with (z + 18446744073709551616)%Z by lia.
  rewrite lxor_ones64 by (unfold u64; lia). unfold u64. lia.
Qed.

Lemma zigzag_range z : (-9223372036854775808 <= z < 9223372036854775808)%Z -> zigzag z < 18446744073709551616.
Proof.
  intros H. destruct (Z.lt_ge_cases z 0).
  - rewrite zigzag_neg; lia.
  - rewrite zigzag_nonneg; lia.
Qed.

Lemma land1 x : N.land x 1 = x mod 2.
Proof. change 1 with (N.ones 1) at 1. rewrite N.land_ones. reflexivity. Qed.

Lemma unzigzag_zigzag z : (-9223372036854775808 <= z < 9223372036854775808)%Z -> unzigzag (zigzag z) = z.
Proof.
  intros H. unfold unzigzag, i64_of_u64. rewrite land1, N.shiftr_div_pow2. change (2 ^ 1) with 2.
  unfold Z.lnot.
  destruct (Z.lt_ge_cases z 0).
  - rewrite zigzag_neg by lia.
    destruct ((2 * Z.to_N (- z) - 1) mod 2 =? 0) eqn:E1; [lia|].
    destruct ((2 * Z.to_N (- z) - 1) / 2 <? 9223372036854775808) eqn:E2; lia.
  - rewrite zigzag_nonneg by lia.
    destruct ((2 * Z.to_N z) mod 2 =? 0) eqn:E1; [|lia].
    destruct ((2 * Z.to_N z) / 2 <? 9223372036854775808) eqn:E2; lia.
Qed.

Lemma varint_put z rest : (-9223372036854775808 <= z < 9223372036854775808)%Z ->
  varint (put_varint z ++ rest) = (z, zlen (put_varint z)).
Proof.
  intros H. unfold varint, put_varint. rewrite uvarint_put by (apply zigzag_range; assumption).
  rewrite unzigzag_zigzag by assumption. reflexivity.
Qed.

Lemma read_varint_put z rest : (-9223372036854775808 <= z < 9223372036854775808)%Z ->
  read_varint (put_varint z ++ rest) = Ok (z, rest).
Proof.
  intros H. unfold read_varint, put_varint. rewrite read_uvarint_put by (apply zigzag_range; assumption).
  simpl. rewrite unzigzag_zigzag by assumption. reflexivity.
Qed.

Lemma put_varint_nonempty z : (1 <= length (put_varint z))%nat.
Proof. apply put_uvarint_nonempty. Qed.

Lemma put_varint_len z : (length (put_varint z) <= 10)%nat.
Proof. apply put_uvarint_len. Qed.

(** * Big endian *)

Lemma be32_put x rest : x < 4294967296 -> be32 (put_be32 x ++ rest) = x.
Proof.
  intros H. unfold put_be32, be32. cbn [app]. unfold u8. rewrite !N.shiftr_div_pow2.
  assert (Hb : forall y, y mod 256 < 256) by (intros; apply N.mod_lt; lia).
  change (2 ^ 8) with 256. change (2 ^ 16) with 65536. change (2 ^ 24) with 16777216.
  rewrite (N.lor_comm (N.shiftl ((x / 65536) mod 256) 16)).
  rewrite N.lor_assoc, N.lor_assoc.
  set (b0 := (x / 16777216) mod 256). set (b1 := (x / 65536) mod 256).
  set (b2 := (x / 256) mod 256). set (b3 := x mod 256).
  rewrite <- (N.lor_assoc (N.lor b3 (N.shiftl b2 8))), (N.lor_comm (N.shiftl b0 24)), N.lor_assoc.
  rewrite (lor_shiftl_add b3 b2 8) by (unfold b3; change (2^8) with 256; lia).
  rewrite (lor_shiftl_add _ b1 16).
  2:{ unfold b3, b2; change (2^8) with 256; change (2^16) with 65536; lia. }
  rewrite lor_shiftl_add.
  2:{ unfold b3, b2, b1; change (2^8) with 256; change (2^16) with 65536; change (2^24) with 16777216; lia. }
  change (2^8) with 256; change (2^16) with 65536; change (2^24) with 16777216.
  unfold b0, b1, b2, b3. lia.
Qed.

Lemma put_be32_length x : length (put_be32 x) = 4%nat.
Proof. reflexivity. Qed.
Lemma put_be64_length x : length (put_be64 x) = 8%nat.
Proof. reflexivity. Qed.

Lemma be64_put x rest : x < 18446744073709551616 -> be64 (put_be64 x ++ rest) = x.
Proof.
  intros H. unfold put_be64, be64. cbn [app]. unfold u8. rewrite !N.shiftr_div_pow2.
  change (2 ^ 8) with 256. change (2 ^ 16) with 65536. change (2 ^ 24) with 16777216.
  change (2 ^ 32) with 4294967296. change (2 ^ 40) with 1099511627776.
  change (2 ^ 48) with 281474976710656. change (2 ^ 56) with 72057594037927936.
  set (b0 := (x / 72057594037927936) mod 256). set (b1 := (x / 281474976710656) mod 256).
  set (b2 := (x / 1099511627776) mod 256). set (b3 := (x / 4294967296) mod 256).
  set (b4 := (x / 16777216) mod 256). set (b5 := (x / 65536) mod 256).
  set (b6 := (x / 256) mod 256). set (b7 := x mod 256).
  assert (B0 : b0 < 256) by (apply N.mod_lt; lia). assert (B1 : b1 < 256) by (apply N.mod_lt; lia).
  assert (B2 : b2 < 256) by (apply N.mod_lt; lia). assert (B3 : b3 < 256) by (apply N.mod_lt; lia).
  assert (B4 : b4 < 256) by (apply N.mod_lt; lia). assert (B5 : b5 < 256) by (apply N.mod_lt; lia).
  assert (B6 : b6 < 256) by (apply N.mod_lt; lia). assert (B7 : b7 < 256) by (apply N.mod_lt; lia).
  assert (E0 : x / 281474976710656 / 256 = x / 72057594037927936) by (rewrite N.div_div; [reflexivity|lia..]).
  assert (E1 : x / 1099511627776 / 256 = x / 281474976710656) by (rewrite N.div_div; [reflexivity|lia..]).
  assert (E2 : x / 4294967296 / 256 = x / 1099511627776) by (rewrite N.div_div; [reflexivity|lia..]).
  assert (E3 : x / 16777216 / 256 = x / 4294967296) by (rewrite N.div_div; [reflexivity|lia..]).
  assert (E4 : x / 65536 / 256 = x / 16777216) by (rewrite N.div_div; [reflexivity|lia..]).
  assert (E5 : x / 256 / 256 = x / 65536) by (rewrite N.div_div; [reflexivity|lia..]).
  pose proof (N.div_mod x 256 ltac:(lia)) as D0.
  pose proof (N.div_mod (x / 256) 256 ltac:(lia)) as D1.
  pose proof (N.div_mod (x / 65536) 256 ltac:(lia)) as D2.
  pose proof (N.div_mod (x / 16777216) 256 ltac:(lia)) as D3.
  pose proof (N.div_mod (x / 4294967296) 256 ltac:(lia)) as D4.
  pose proof (N.div_mod (x / 1099511627776) 256 ltac:(lia)) as D5.
  pose proof (N.div_mod (x / 281474976710656) 256 ltac:(lia)) as D6.
  assert (D7 : b0 = x / 72057594037927936).
  { apply N.mod_small. apply N.div_lt_upper_bound; lia. }
  rewrite E5 in D1. rewrite E4 in D2. rewrite E3 in D3. rewrite E2 in D4. rewrite E1 in D5. rewrite E0 in D6.
  fold b7 in D0. fold b6 in D1. fold b5 in D2. fold b4 in D3. fold b3 in D4. fold b2 in D5. fold b1 in D6.
  clearbody b0 b1 b2 b3 b4 b5 b6 b7. clear E0 E1 E2 E3 E4 E5 H.
  rewrite !N.lor_assoc.
  rewrite (lor_shiftl_add b7 b6 8) by (change (2^8) with 256; clear -B0 B1 B2 B3 B4 B5 B6 B7; lia). change (2^8) with 256.
  rewrite (lor_shiftl_add _ b5 16) by (change (2^16) with 65536; clear -B0 B1 B2 B3 B4 B5 B6 B7; lia). change (2^16) with 65536.
  rewrite (lor_shiftl_add _ b4 24) by (change (2^24) with 16777216; clear -B0 B1 B2 B3 B4 B5 B6 B7; lia). change (2^24) with 16777216.
  rewrite (lor_shiftl_add _ b3 32) by (change (2^32) with 4294967296; clear -B0 B1 B2 B3 B4 B5 B6 B7; lia). change (2^32) with 4294967296.
  rewrite (lor_shiftl_add _ b2 40) by (change (2^40) with 1099511627776; clear -B0 B1 B2 B3 B4 B5 B6 B7; lia). change (2^40) with 1099511627776.
  rewrite (lor_shiftl_add _ b1 48) by (change (2^48) with 281474976710656; clear -B0 B1 B2 B3 B4 B5 B6 B7; lia). change (2^48) with 281474976710656.
  rewrite (lor_shiftl_add _ b0 56) by (change (2^56) with 72057594037927936; clear -B0 B1 B2 B3 B4 B5 B6 B7; lia). change (2^56) with 72057594037927936.
  clear B0 B1 B2 B3 B4 B5 B6 B7.
  set (q1 := x / 256) in *. set (q2 := x / 65536) in *. set (q3 := x / 16777216) in *.
  set (q4 := x / 4294967296) in *. set (q5 := x / 1099511627776) in *.
  set (q6 := x / 281474976710656) in *. set (q7 := x / 72057594037927936) in *.
  clearbody q1 q2 q3 q4 q5 q6 q7. lia.
Qed.

Lemma i64_u64 z : (-9223372036854775808 <= z < 9223372036854775808)%Z -> i64_of_u64 (u64_of_i64 z) = z.
Proof.
  intros H. unfold i64_of_u64, u64_of_i64.
  destruct (Z.lt_ge_cases z 0).
  - replace (z mod 18446744073709551616)%Z with (z + 18446744073709551616)%Z by lia.
    destruct (Z.to_N (z + 18446744073709551616) <? 9223372036854775808) eqn:E; lia.
  - rewrite Z.mod_small by lia.
    destruct (Z.to_N z <? 9223372036854775808) eqn:E; lia.
Qed.

Lemma u64_of_i64_range z : u64_of_i64 z < 18446744073709551616.
Proof. unfold u64_of_i64. lia. Qed.

(** * Posts *)

Lemma post_make_val d b : d < 4294967296 -> b < 4294967296 -> post_make d b = d * 4294967296 + b.
Proof.
  intros Hd Hb. unfold post_make. rewrite u64_shiftl_small by (change (2^32) with 4294967296; lia).
  rewrite N.lor_comm, lor_shiftl_add by (change (2^32) with 4294967296; lia).
  change (2^32) with 4294967296. lia.
Qed.

Lemma post_docid_make d b : d < 4294967296 -> b < 4294967296 -> post_docid (post_make d b) = d.
Proof.
  intros Hd Hb. rewrite post_make_val by assumption. unfold post_docid, u32.
  rewrite N.shiftr_div_pow2. change (2^32) with 4294967296. lia.
Qed.

Lemma post_blot_make d b : d < 4294967296 -> b < 4294967296 -> post_blot (post_make d b) = b.
Proof. intros Hd Hb. rewrite post_make_val by assumption. unfold post_blot, u32. lia. Qed.

Lemma post_split_make d b : d < 4294967296 -> b < 4294967296 ->
  post_split (post_make d b) = (d, b) /\ post_make d b < 18446744073709551616.
Proof.
  intros. unfold post_split. rewrite post_docid_make, post_blot_make, post_make_val by assumption.
  split; [reflexivity | lia].
Qed.
Lemma post_make_inj d1 b1 d2 b2 :
  d1 < 4294967296 -> b1 < 4294967296 -> d2 < 4294967296 -> b2 < 4294967296 ->
  post_make d1 b1 = post_make d2 b2 -> d1 = d2 /\ b1 = b2.
Proof. intros. rewrite !post_make_val in * by assumption. lia. Qed.
Lemma post_make_split p : p < 18446744073709551616 -> post_make (post_docid p) (post_blot p) = p.
Proof.
  intros. unfold post_docid, post_blot, u32. rewrite N.shiftr_div_pow2.
  change (2 ^ 32) with 4294967296.
  rewrite (N.mod_small (p / 4294967296)) by lia.
  rewrite post_make_val by lia. lia.
Qed.
