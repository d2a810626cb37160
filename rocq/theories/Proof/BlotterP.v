(** Rolling fingerprints: the ring always holds the last hashes. *)
From Coq Require Import Permutation.
From Verif Require Import Model.Base Model.Utf8 Model.Blotter Spec.Text Spec.Fingerprint
  Proof.Tactics Proof.Utf8P.
Local Open Scope N_scope.

Definition word_hash (u : unicode) (w : bytes) : N := fnv32 (bytes_to_lower u w).

Lemma xors_app a b : xors (a ++ b) = N.lxor (xors a) (xors b).
Proof.
  induction a as [|x a IH]; cbn [app xors fold_right].
  - rewrite N.lxor_0_l. reflexivity.
  - fold (xors (a ++ b)) (xors a). rewrite IH, N.lxor_assoc. reflexivity.
Qed.
Lemma xors_perm a b : Permutation a b -> xors a = xors b.
Proof.
  induction 1; cbn [xors fold_right]; auto.
  - fold (xors l) (xors l'). congruence.
  - fold (xors l). rewrite <- !N.lxor_assoc, (N.lxor_comm x y). reflexivity.
  - congruence.
Qed.

Definition shift1 (h : N) (f : nat -> N) (t : nat) : N := match t with O => h | S t => f t end.

(** The ring [c] holds f 0 (newest), f 1, ..., f (m-1). *)
Record circ_inv (m : nat) (f : nat -> N) (c : circ) : Prop := {
  ci_len : length (c_hashes c) = m;
  ci_i : (c_i c < m)%nat;
  ci_ring : forall t, (t < m)%nat -> nth_error (c_hashes c) ((c_i c + m - 1 - t) mod m) = Some (f t);
  ci_hash : c_hash c = xors (map f (seq 0 m)) }.

Lemma seq_shift1 h f m : (0 < m)%nat ->
  map (shift1 h f) (seq 0 m) = h :: map f (seq 0 (m - 1)).
Proof.
  intros H. destruct m as [|m]; [lia|]. cbn [seq map shift1]. f_equal.
  rewrite <- seq_shift, map_map. replace (S m - 1)%nat with m by lia. reflexivity.
Qed.
Lemma seq_last (f : nat -> N) m : (0 < m)%nat -> map f (seq 0 m) = map f (seq 0 (m - 1)) ++ [f (m - 1)%nat].
Proof.
  intros H. destruct m as [|m]; [lia|]. rewrite seq_S, map_app. cbn [map].
  replace (S m - 1)%nat with m by lia. reflexivity.
Qed.

Lemma circ_step u m f c w : circ_inv m f c ->
  let f' := shift1 (word_hash u w) f in
  exists c', circ_blot u c w = Ok (c', xors (map f' (seq 0 m))) /\ circ_inv m f' c'.
Proof.
  intros [L Hi R Hh] f'. unfold circ_blot. set (h := word_hash u w) in *.
  fold (word_hash u w). fold h.
  assert (nth_error (c_hashes c) (c_i c) = Some (f (m - 1)%nat)) as Old.
  { rewrite <- (R (m - 1)%nat) by lia. f_equal.
    replace (c_i c + m - 1 - (m - 1))%nat with (c_i c) by lia. rewrite Nat.mod_small by lia. reflexivity. }
  rewrite Old.
  assert (N.lxor (N.lxor (c_hash c) (f (m - 1)%nat)) h = xors (map f' (seq 0 m))) as E.
  { unfold f'. rewrite seq_shift1 by lia. rewrite Hh, (seq_last f m) by lia. rewrite xors_app.
    cbn [xors fold_right]. fold (xors (map f (seq 0 (m - 1)))). rewrite N.lxor_0_r.
    set (X := xors (map f (seq 0 (m - 1)))). rewrite (N.lxor_assoc X), N.lxor_nilpotent, N.lxor_0_r. apply N.lxor_comm. }
  rewrite E. eexists. split; [reflexivity|]. rewrite upd_length, L.
  set (i' := if (S (c_i c) =? m)%nat then 0%nat else S (c_i c)).
  assert (i' = (S (c_i c)) mod m)%nat as Ei.
  { unfold i'. destruct (Nat.eqb_spec (S (c_i c)) m) as [->|Hn].
    - rewrite Nat.mod_same by lia. reflexivity.
    - rewrite Nat.mod_small by lia. reflexivity. }
  constructor; cbn [c_hashes c_hash c_i].
  - rewrite upd_length. exact L.
  - rewrite Ei. apply Nat.mod_upper_bound. lia.
  - intros t Ht.
    assert ((i' + m - 1 - t) mod m = (c_i c + m - t) mod m)%nat as Em.
    { unfold i'. destruct (Nat.eqb_spec (S (c_i c)) m) as [Heq|Hn].
      - replace (c_i c + m - t)%nat with (0 + m - 1 - t + 1 * m)%nat by lia. rewrite Nat.mod_add by lia. reflexivity.
      - f_equal. lia. }
    rewrite Em. destruct t as [|t].
    + replace (c_i c + m - 0)%nat with (c_i c + 1 * m)%nat by lia. rewrite Nat.mod_add, Nat.mod_small by lia.
      rewrite nth_error_upd_eq by lia. reflexivity.
    + cbn [shift1 f']. rewrite nth_error_upd_ne.
      * replace (c_i c + m - S t)%nat with (c_i c + m - 1 - t)%nat by lia. apply R. lia.
      * intros Heq.
        destruct (Nat.lt_ge_cases (c_i c + m - S t) m) as [Hl|Hl].
        -- rewrite Nat.mod_small in Heq by lia. lia.
        -- replace (c_i c + m - S t)%nat with (c_i c - S t + 1 * m)%nat in Heq by lia.
           rewrite Nat.mod_add, Nat.mod_small in Heq by lia. lia.
  - reflexivity.
Qed.

Lemma new_circ_inv m : (0 < m)%nat -> exists c, new_circ (Z.of_nat m) = Ok c /\ circ_inv m (fun _ => 0) c.
Proof.
  intros H. unfold new_circ. destruct (Z.ltb_spec (Z.of_nat m) 0); [lia|]. rewrite Nat2Z.id.
  eexists. split; [reflexivity|]. constructor; cbn [c_hashes c_hash c_i].
  - apply repeat_length.
  - exact H.
  - intros t Ht. assert ((0 + m - 1 - t) mod m < m)%nat as Hl by (apply Nat.mod_upper_bound; lia).
    rewrite (nth_error_nth' _ 0) by (rewrite repeat_length; exact Hl).
    f_equal. apply nth_repeat.
  - clear H. set (l := seq 0 m). clearbody l. induction l as [|x l IH]; [reflexivity|].
    cbn [map xors fold_right]. fold (xors (map (fun _ : nat => 0) l)). rewrite <- IH. reflexivity.
Qed.

(** Interleaved: circ j holds the hashes of every k-th word, the newest of them being
    (i + k - 1 - j) mod k words old. *)
Record inter_inv (k m : nat) (g : nat -> N) (v : interleaved) : Prop := {
  ii_len : length (v_circs v) = k;
  ii_i : (v_i v < k)%nat;
  ii_circ : forall j c, nth_error (v_circs v) j = Some c ->
     circ_inv m (fun t => g ((v_i v + k - 1 - j) mod k + t * k)%nat) c }.

Lemma circ_inv_ext m f f' c : (forall t, (t < m)%nat -> f t = f' t) -> circ_inv m f c -> circ_inv m f' c.
Proof.
  intros E [L Hi R Hh]. constructor; auto.
  - intros t Ht. rewrite R, E by exact Ht. reflexivity.
  - rewrite Hh. f_equal. apply map_ext_in. intros t Ht. apply in_seq in Ht. apply E. lia.
Qed.

Lemma inter_step u k m g v w : inter_inv k m g v ->
  let g' := shift1 (word_hash u w) g in
  exists v', interleaved_blot u v w = Ok (v', xors (map (fun t => g' (t * k)%nat) (seq 0 m))) /\ inter_inv k m g' v'.
Proof.
  intros [L Hi C] g'. unfold interleaved_blot.
  destruct (nth_error (v_circs v) (v_i v)) as [c|] eqn:Ec; [|apply nth_error_None in Ec; lia].
  destruct (circ_step u m _ c w (C _ _ Ec)) as (c' & Eb & Ic). rewrite Eb. cbn [bind].
  assert (forall t, shift1 (word_hash u w) (fun t => g ((v_i v + k - 1 - v_i v) mod k + t * k)%nat) t = g' (t * k)%nat) as Eg.
  { intros [|t]; [reflexivity|]. cbn [shift1]. unfold g'.
    replace (v_i v + k - 1 - v_i v)%nat with (k - 1)%nat by lia. rewrite Nat.mod_small by lia.
    replace (S t * k)%nat with (S (k - 1 + t * k))%nat by lia. reflexivity. }
  eexists. split.
  { f_equal. f_equal. f_equal. apply map_ext. exact Eg. }
  rewrite upd_length, L.
  set (i' := if (S (v_i v) =? k)%nat then 0%nat else S (v_i v)).
  assert (i' < k)%nat as Hi' by (unfold i'; destruct (Nat.eqb_spec (S (v_i v)) k); lia).
  constructor; cbn [v_circs v_i].
  - rewrite upd_length. exact L.
  - exact Hi'.
  - intros j x Hx. rewrite nth_error_upd in Hx. destruct (Nat.eqb_spec (v_i v) j) as [<-|Hne].
    + rewrite Ec in Hx. assert (x = c') as -> by congruence.
      eapply circ_inv_ext; [|exact Ic]. intros t _. cbv beta. rewrite Eg. f_equal.
      assert ((i' + k - 1 - v_i v) mod k = 0)%nat as ->; [|reflexivity].
      unfold i'. destruct (Nat.eqb_spec (S (v_i v)) k) as [E|E].
      * replace (0 + k - 1 - v_i v)%nat with 0%nat by lia. apply Nat.mod_0_l. lia.
      * replace (S (v_i v) + k - 1 - v_i v)%nat with k by lia. apply Nat.mod_same. lia.
    + assert (j < k)%nat as Hj by (rewrite <- L; apply nth_error_Some; congruence).
      eapply circ_inv_ext; [|exact (C j x Hx)]. intros t _. cbv beta.
      assert ((i' + k - 1 - j) mod k = S ((v_i v + k - 1 - j) mod k))%nat as ->; [|reflexivity].
      unfold i'. destruct (Nat.eqb_spec (S (v_i v)) k) as [E|E].
      * replace (v_i v + k - 1 - j)%nat with (k - 2 - j + 1 * k)%nat by lia. rewrite Nat.mod_add by lia.
        rewrite !Nat.mod_small by lia. lia.
      * destruct (Nat.lt_ge_cases j (v_i v)) as [Hl|Hl].
        -- replace (S (v_i v) + k - 1 - j)%nat with (v_i v - j + 1 * k)%nat by lia.
           replace (v_i v + k - 1 - j)%nat with (v_i v - 1 - j + 1 * k)%nat by lia.
           rewrite !Nat.mod_add, !Nat.mod_small by lia. lia.
        -- rewrite !Nat.mod_small by lia. lia.
Qed.

(** The hash of the t-th last word. *)
Definition back (u : unicode) (ws : list bytes) (t : nat) : N :=
  match nth_error (rev ws) t with Some w => word_hash u w | None => 0 end.
Lemma back_snoc u ws w t : back u (ws ++ [w]) t = shift1 (word_hash u w) (back u ws) t.
Proof. unfold back. rewrite rev_app_distr. destruct t; reflexivity. Qed.
Lemma blot_of_back u k m ws : blot_of (word_hash u) k m ws = xors (map (fun t => back u ws (t * k)) (seq 0 m)).
Proof. unfold blot_of, recent. rewrite map_map. reflexivity. Qed.

(** [b] is the state after blotting the words [ws]. *)
Definition blotter_inv (u : unicode) (k m : nat) (ws : list bytes) (b : blotter) : Prop :=
  match b with
  | BCirc c => k = 1%nat /\ circ_inv m (back u ws) c
  | BInter v => inter_inv k m (back u ws) v
  end.

Lemma blotter_step u k m ws b w : blotter_inv u k m ws b ->
  exists b', blotter_blot u b w = Ok (b', blot_of (word_hash u) k m (ws ++ [w])) /\
             blotter_inv u k m (ws ++ [w]) b'.
Proof.
  intros I. destruct b as [c|v]; cbn [blotter_inv blotter_blot] in *.
  - destruct I as [-> I]. destruct (circ_step u m _ c w I) as (c' & E & I'). rewrite E. cbn [bind].
    exists (BCirc c'). split.
    + do 2 f_equal. rewrite blot_of_back. f_equal. apply map_ext. intros t.
      rewrite Nat.mul_1_r, back_snoc. reflexivity.
    + split; [reflexivity|]. eapply circ_inv_ext; [|exact I']. intros t _. rewrite back_snoc. reflexivity.
  - destruct (inter_step u k m _ v w I) as (v' & E & I'). rewrite E. cbn [bind].
    exists (BInter v'). split.
    + do 2 f_equal. rewrite blot_of_back. f_equal. apply map_ext. intros t. rewrite back_snoc. reflexivity.
    + destruct I' as [L Hi C]. constructor; auto. intros j c Hc. eapply circ_inv_ext; [|exact (C j c Hc)].
      intros t _. cbv beta. rewrite back_snoc. reflexivity.
Qed.

(** The configurations whose sequence length is positive. *)
Lemma blotter_fresh u k m : (0 < k)%nat -> (0 < m)%nat ->
  exists b, blotter_from_config (MkBlotConfig (Z.of_nat m) (Z.of_nat k)) = Ok b /\ blotter_inv u k m [] b.
Proof.
  intros Hk Hm. unfold blotter_from_config. cbn [bc_seqlen bc_interleave].
  destruct (Z.ltb_spec (Z.of_nat k) 1); [lia|].
  destruct (new_circ_inv m Hm) as (c & Ec & Ic).
  destruct (Z.eqb_spec (Z.of_nat k) 1).
  - rewrite Ec. cbn [bind]. exists (BCirc c). split; [reflexivity|]. split; [lia|].
    eapply circ_inv_ext; [|exact Ic]. intros t _. unfold back. cbn [rev]. destruct t; reflexivity.
  - unfold new_interleaved. rewrite Ec. cbn [bind]. rewrite Nat2Z.id. exists (BInter (MkInter (repeat c k) 0)).
    split; [reflexivity|]. constructor; cbn [v_circs v_i].
    + apply repeat_length.
    + exact Hk.
    + intros j x Hx. apply nth_error_In, repeat_spec in Hx. subst x.
      eapply circ_inv_ext; [|exact Ic]. intros t _. unfold back. cbn [rev].
      destruct (_ + _)%nat; reflexivity.
Qed.

(** Blotting a list of words. *)
Fixpoint blot_all (u : unicode) (b : blotter) (ws : list bytes) : result (blotter * list N) :=
  match ws with
  | [] => Ok (b, [])
  | w :: r => do! (b, x) <- blotter_blot u b w; do! (b, xs) <- blot_all u b r; Ok (b, x :: xs)
  end.
Lemma blot_all_spec u k m ws : forall hist b, blotter_inv u k m hist b ->
  exists b', blot_all u b ws = Ok (b', map (fun i => blot_of (word_hash u) k m (hist ++ firstn (S i) ws)) (seq 0 (length ws))) /\
             blotter_inv u k m (hist ++ ws) b'.
Proof.
  induction ws as [|w ws IH]; intros hist b I; cbn [blot_all length].
  - exists b. rewrite app_nil_r. auto.
  - destruct (blotter_step u k m hist b w I) as (b1 & E & I1). rewrite E. cbn [bind].
    destruct (IH _ _ I1) as (b2 & E2 & I2). rewrite E2. cbn [bind]. exists b2.
    rewrite <- app_assoc in I2. split; [|exact I2]. do 2 f_equal. cbn [seq map firstn]. f_equal.
    rewrite <- seq_shift, map_map. apply map_ext. intros i. rewrite <- app_assoc. reflexivity.
Qed.

(** A blot depends on the last k*(m-1)+1 words only. *)
Lemma blot_of_suffix H k m a b ws : (k * (m - 1) < length ws)%nat ->
  blot_of H k m (a ++ ws) = blot_of H k m (b ++ ws).
Proof.
  intros L. unfold blot_of, recent. rewrite !map_map. f_equal. apply map_ext_in. intros t Ht. apply in_seq in Ht.
  rewrite !rev_app_distr. rewrite !nth_error_app1; auto; rewrite rev_length; nia.
Qed.

(** Words equal up to case have equal hashes. *)
Lemma same_letters_hash u w1 w2 : same_letters u w1 w2 -> word_hash u w1 = word_hash u w2.
Proof.
  intros (cs1 & cs2 & T1 & T2 & E). change (lower_case u) with (to_lower u) in E. unfold word_hash.
  rewrite (bytes_to_lower_text u w1 cs1 T1), (bytes_to_lower_text u w2 cs2 T2).
  unfold lower_text. rewrite <- !(map_map (to_lower u) encode_rune), E. reflexivity.
Qed.

Lemma blot_case_order u k m ws1 ws2 l1 l1' l2 :
  recent k m ws1 = map Some l1 -> recent k m ws2 = map Some l2 ->
  Permutation l1 l1' -> Forall2 (same_letters u) l1' l2 ->
  blot_of (word_hash u) k m ws1 = blot_of (word_hash u) k m ws2.
Proof.
  intros E1 E2 P F. unfold blot_of. rewrite E1, E2, !map_map.
  transitivity (xors (map (word_hash u) l1')).
  - apply xors_perm. apply Permutation_map. exact P.
  - f_equal. clear - F. induction F as [|x y a b Hxy F IH]; [reflexivity|]. cbn [map].
    rewrite (same_letters_hash u x y Hxy), IH. reflexivity.
Qed.

(** All blots are 32-bit. *)
Lemma lxor32 a b : a < 4294967296 -> b < 4294967296 -> N.lxor a b < 4294967296.
Proof.
  change 4294967296 with (2 ^ 32). intros Ha Hb.
  destruct (N.eq_dec (N.lxor a b) 0) as [->|Hn]; [reflexivity|].
  apply N.log2_lt_pow2; [lia|].
  eapply N.le_lt_trans; [apply N.log2_lxor|].
  destruct (N.eq_dec a 0) as [->|Ha0].
  - change (N.log2 0) with 0. destruct (N.eq_dec b 0) as [->|Hb0].
    + reflexivity.
    + rewrite N.max_r by lia. apply N.log2_lt_pow2; lia.
  - destruct (N.eq_dec b 0) as [->|Hb0].
    + change (N.log2 0) with 0. rewrite N.max_l by lia. apply N.log2_lt_pow2; lia.
    + apply N.max_lub_lt; apply N.log2_lt_pow2; lia.
Qed.
Lemma fnv32_bound s : Forall (fun c => c < 4294967296) s -> fnv32 s < 4294967296.
Proof.
  unfold fnv32. assert (2166136261 < 4294967296) as H by lia. revert H. generalize 2166136261.
  induction s as [|c s IH]; intros h Hh Hs; [exact Hh|]. inv Hs. cbn [fold_left]. apply IH; [|assumption].
  apply lxor32; [unfold u32; lia|assumption].
Qed.
Lemma lor8 a b : a < 256 -> b < 256 -> N.lor a b < 256.
Proof.
  change 256 with (2 ^ 8). intros Ha Hb.
  destruct (N.eq_dec (N.lor a b) 0) as [->|Hn]; [reflexivity|].
  apply N.log2_lt_pow2; [lia|]. rewrite N.log2_lor.
  assert (forall x, x < 2 ^ 8 -> N.log2 x < 8) as L.
  { intros x Hx. destruct (N.eq_dec x 0) as [->|]; [reflexivity|]. apply N.log2_lt_pow2; lia. }
  apply N.max_lub_lt; apply L; assumption.
Qed.
Lemma encode_rune_bytes r : Forall (fun c => c < 256) (encode_rune r).
Proof.
  assert (forall x, u8 x < 256) as U by (intros x; unfold u8; lia).
  assert (forall x, N.land (u8 x) 63 < 256) as V by (intros x; rewrite land63; lia).
  unfold encode_rune.
  destruct (r <=? 127); [auto|].
  destruct (r <=? 2047); [repeat constructor; apply lor8; auto; lia|].
  destruct (_ <=? 65535); repeat constructor; apply lor8; auto; lia.
Qed.
Lemma word_hash_bound u w : Forall (fun c => c < 256) w -> word_hash u w < 4294967296.
Proof.
  intros Hw. apply fnv32_bound. unfold bytes_to_lower. destruct (forallb _ w) eqn:E.
  - apply Forall_map. eapply Forall_impl; [|exact Hw]. cbn beta. intros c Hc. destruct (in_range 65 90 c); lia.
  - unfold map_lower. apply Forall_concat, Forall_map. apply Forall_forall. intros ir _.
    eapply Forall_impl; [|apply encode_rune_bytes]. cbn beta. intros; lia.
Qed.
Lemma blot_of_bound u k m ws : Forall (fun w => word_hash u w < 4294967296) ws ->
  blot_of (word_hash u) k m ws < 4294967296.
Proof.
  intros H. unfold blot_of. generalize (seq 0 m) as l. unfold recent.
  assert (forall o, In o (map (fun t => nth_error (rev ws) (t * k)) (seq 0 m)) ->
    (match o with Some w => word_hash u w | None => 0 end) < 4294967296) as P.
  { intros o Ho. apply in_map_iff in Ho. destruct Ho as (t & <- & _).
    destruct (nth_error (rev ws) (t * k)) as [w|] eqn:E; [|lia].
    apply nth_error_In, in_rev in E. rewrite Forall_forall in H. apply H. exact E. }
  intros _. revert P. generalize (map (fun t => nth_error (rev ws) (t * k)) (seq 0 m)) as l.
  induction l as [|o l IH]; intros P; [cbn; lia|]. cbn [map xors fold_right].
  apply lxor32; [apply P; left; reflexivity|]. apply IH. intros x Hx. apply P. right. exact Hx.
Qed.
