(** Arithmetic of shard and slot addresses. *)
From Verif Require Import Model.Base Model.Post Model.Address Proof.Tactics Proof.VarintP.
Local Open Scope N_scope.

Lemma land_65535 x : N.land x 65535 = x mod 65536.
Proof. change 65535 with (N.ones 16). rewrite N.land_ones. reflexivity. Qed.

(** b modulo n*65536 in terms of quotient and remainder by n. *)
Lemma mod_mul_split n b : 1 <= n -> b mod (n * 65536) = n * ((b / n) mod 65536) + b mod n.
Proof. intros H. rewrite N.mod_mul_r by lia. lia. Qed.

Lemma div_of_split n q r : 1 <= n -> r < n -> (n * q + r) / n = q /\ (n * q + r) mod n = r.
Proof.
  intros H1 H2. split.
  - symmetry. apply (N.div_unique _ _ q r); lia.
  - symmetry. apply (N.mod_unique _ _ q r); lia.
Qed.

Lemma split_blot_spec n b : 1 <= n < 65536 -> split_blot n b = Ok (b mod n, (b / n) mod 65536).
Proof.
  intros H. unfold split_blot, u16, u32.
  rewrite (N.mod_small (n * 65536)) by lia.
  assert ((n * 65536 =? 0) || (n =? 0) = false) as -> by (apply orb_false_intro; lia).
  rewrite mod_mul_split by lia.
  assert (b mod n < n) as R by (apply N.mod_lt; lia).
  destruct (div_of_split n ((b / n) mod 65536) (b mod n) ltac:(lia) R) as [-> ->].
  rewrite N.mod_mod by lia. reflexivity.
Qed.

Lemma join_split n s q : 1 <= n < 65536 -> s < n -> q < 65536 -> join_blot n s q = n * q + s.
Proof.
  intros H1 H2 H3. unfold join_blot, add32, u32.
  assert (n * q + s < 4294967296).
  { assert (n * q <= n * 65535) by (apply N.mul_le_mono_l; lia).
    assert (n * 65535 + s < n * 65536) by lia. lia. }
  rewrite (N.mod_small (n * q)) by lia. apply N.mod_small. assumption.
Qed.

Lemma split_join_blot n b : 1 <= n < 65536 ->
  exists s q, split_blot n b = Ok (s, q) /\ s < n /\ q < 65536 /\ join_blot n s q = b mod (n * 65536).
Proof.
  intros H. exists (b mod n), ((b / n) mod 65536). split; [apply split_blot_spec; assumption|].
  assert (b mod n < n) by (apply N.mod_lt; lia).
  assert ((b / n) mod 65536 < 65536) by (apply N.mod_lt; lia).
  repeat split; auto. rewrite join_split, mod_mul_split by lia. reflexivity.
Qed.

Lemma join_split_blot n s q : 1 <= n < 65536 -> s < n -> q < 65536 ->
  split_blot n (join_blot n s q) = Ok (s, q).
Proof.
  intros H1 H2 H3. rewrite split_blot_spec, join_split by assumption.
  destruct (div_of_split n q s ltac:(lia) H2) as [-> ->].
  rewrite (N.mod_small q) by assumption. reflexivity.
Qed.

Lemma writer_reader_agree n docid b : 1 <= n < 4294967296 -> b < 4294967296 -> docid < 4294967296 ->
  exists s p, shatter_blot n docid b = Ok (s, p) /\ get_address n b = Ok (s, serve_slot p) /\
    s < n /\ serve_slot p < 65536 /\ post_docid p = docid.
Proof.
  intros Hn Hb Hd. exists (b mod n), (post_make docid (b / n)).
  unfold shatter_blot, get_address, serve_slot. destruct (N.eqb_spec n 0); [lia|].
  assert (b / n < 4294967296).
  { apply N.div_lt_upper_bound; [lia|]. assert (1 * 4294967296 <= n * 4294967296) by (apply N.mul_le_mono_r; lia). lia. }
  rewrite post_blot_make, post_docid_make, land_65535 by assumption.
  repeat split; auto; apply N.mod_lt; lia.
Qed.

Lemma get_address_mod n b : 1 <= n < 65536 -> get_address n (b mod (n * 65536)) = get_address n b.
Proof.
  intros H. unfold get_address, u16. destruct (N.eqb_spec n 0); [lia|].
  rewrite mod_mul_split by lia.
  assert (b mod n < n) as R by (apply N.mod_lt; lia).
  destruct (div_of_split n ((b / n) mod 65536) (b mod n) ltac:(lia) R) as [-> ->].
  rewrite N.mod_mod by lia. reflexivity.
Qed.

Lemma same_address n b1 b2 : 1 <= n ->
  get_address n b1 = get_address n b2 <-> b1 mod (n * 65536) = b2 mod (n * 65536).
Proof.
  intros H. unfold get_address, u16. destruct (N.eqb_spec n 0); [lia|].
  rewrite !mod_mul_split by lia.
  assert (b1 mod n < n) as R1 by (apply N.mod_lt; lia).
  assert (b2 mod n < n) as R2 by (apply N.mod_lt; lia).
  split; intros E.
  - inv E. lia.
  - destruct (div_of_split n ((b1 / n) mod 65536) (b1 mod n) ltac:(lia) R1) as [A1 A2].
    destruct (div_of_split n ((b2 / n) mod 65536) (b2 mod n) ltac:(lia) R2) as [A3 A4].
    rewrite E in A1, A2. congruence.
Qed.

(** The blot reported by Next for the place of [b] is [b] modulo n*65536. *)
Lemma fill_blot_id_spec n b : 1 <= n < 4294967296 -> b < 4294967296 ->
  exists s q, get_address n b = Ok (s, q) /\ fill_blot_id n s q = b mod (n * 65536).
Proof.
  intros H Hb. exists (b mod n), ((b / n) mod 65536). unfold get_address, fill_blot_id, u16, add32, u32.
  destruct (N.eqb_spec n 0); [lia|]. split; [reflexivity|].
  rewrite N.add_mod_idemp_l by lia.
  replace ((b / n) mod 65536 * n) with (n * ((b / n) mod 65536)) by lia.
  rewrite <- mod_mul_split by lia. apply N.mod_small.
  pose proof (N.mod_le b (n * 65536)). lia.
Qed.

(** The blot reported determines the place. *)
Lemma fill_blot_id_u32 n i s : fill_blot_id n i s = u32 (s * n + i).
Proof. unfold fill_blot_id, add32, u32. apply N.add_mod_idemp_l. discriminate. Qed.
Lemma fill_blot_id_split n s q : 1 <= n < 65536 -> s < n -> q < 65536 ->
  fill_blot_id n s q = join_blot n s q.
Proof. intros. unfold fill_blot_id, join_blot. rewrite (N.mul_comm q n). reflexivity. Qed.
