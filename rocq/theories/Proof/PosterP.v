(** The posting file is a function [render] of the log of flushed chunks. *)
From Verif Require Import Model.Base Model.Varint Model.Poster Spec.Reading Proof.Tactics Proof.VarintP.
Local Open Scope N_scope.

(** * Positional writes *)
Lemma pwrite_end f d : pwrite f (length f) d = f ++ d.
Proof.
  unfold pwrite. rewrite firstn_all, Nat.sub_diag. cbn [repeat app].
  rewrite skipn_all2 by lia. rewrite app_nil_r. reflexivity.
Qed.

Lemma pwrite_app_r a f k d : pwrite (a ++ f) (length a + k) d = a ++ pwrite f k d.
Proof.
  unfold pwrite. rewrite app_length.
  rewrite firstn_app_2, <- !app_assoc. do 2 f_equal.
  replace (length a + k - (length a + length f))%nat with (k - length f)%nat by lia. do 2 f_equal.
  rewrite <- Nat.add_assoc, skipn_app. rewrite skipn_all2 by lia. cbn [app]. f_equal. lia.
Qed.

Lemma pwrite_replace old f d : length d = length old -> pwrite (old ++ f) 0 d = d ++ f.
Proof.
  intros H. unfold pwrite. cbn [firstn app Nat.sub repeat Nat.add].
  rewrite H, skipn_app_exact by reflexivity. reflexivity.
Qed.

Lemma pwrite_at3 h p old f d k : k = (length h + length p)%nat -> length d = length old ->
  pwrite (h ++ p ++ old ++ f) k d = h ++ p ++ d ++ f.
Proof.
  intros -> H. rewrite app_assoc, <- app_length.
  replace (length (h ++ p)) with (length (h ++ p) + 0)%nat by lia.
  rewrite pwrite_app_r, pwrite_replace by assumption. rewrite <- app_assoc. reflexivity.
Qed.

Lemma pwrite_past3 h p lk f d k j : k = (length h + length p + length lk + j)%nat ->
  pwrite (h ++ p ++ lk ++ f) k d = h ++ p ++ lk ++ pwrite f j d.
Proof.
  intros ->. rewrite !app_assoc, <- !app_length.
  rewrite pwrite_app_r. reflexivity.
Qed.

Lemma pwrite_length_in f k d : (k + length d <= length f)%nat -> length (pwrite f k d) = length f.
Proof.
  intros H. unfold pwrite. rewrite !app_length, firstn_length, repeat_length, skipn_length. lia.
Qed.

(** * The log *)
Notation entry := (nat * list N)%type.
Definition payload (ds : list N) : bytes := concat (map put_uvarint ds).
Definition chunk_hdr (ds : list N) : bytes := put_varint (Z.of_nat (length (payload ds) + 8)).
Definition chunk_len (ds : list N) : nat := (length (chunk_hdr ds) + length (payload ds) + 8)%nat.
Fixpoint log_size (log : list entry) : nat :=
  match log with [] => 0%nat | (_, ds) :: r => (chunk_len ds + log_size r)%nat end.
Fixpoint next_off (s : nat) (base : nat) (log : list entry) : Z :=
  match log with
  | [] => (-1)%Z
  | (s', ds) :: r => if (s' =? s)%nat then Z.of_nat base else next_off s (base + chunk_len ds) r
  end.
Fixpoint link_pos (s : nat) (base : nat) (log : list entry) : Z :=
  match log with
  | [] => (-1)%Z
  | (s', ds) :: r =>
      let l := link_pos s (base + chunk_len ds) r in
      if (l =? -1)%Z then
        if (s' =? s)%nat then (Z.of_nat (base + chunk_len ds) - 8)%Z else (-1)%Z
      else l
  end.
Definition link_bytes (z : Z) : bytes := put_be64 (u64_of_i64 z).
Fixpoint render (base : nat) (log : list entry) : bytes :=
  match log with
  | [] => []
  | (s, ds) :: r =>
      chunk_hdr ds ++ payload ds ++ link_bytes (next_off s (base + chunk_len ds) r)
        ++ render (base + chunk_len ds) r
  end.
Definition chunks (s : nat) (log : list entry) : list (list N) :=
  map snd (filter (fun e => (fst e =? s)%nat) log).

Lemma link_bytes_length z : length (link_bytes z) = 8%nat.
Proof. apply put_be64_length. Qed.

Lemma render_length log : forall base, length (render base log) = log_size log.
Proof.
  induction log as [|[s ds] r IH]; intros base; [reflexivity|].
  cbn [render log_size]. rewrite !app_length, IH, link_bytes_length. unfold chunk_len. lia.
Qed.

Lemma log_size_app l1 l2 : log_size (l1 ++ l2) = (log_size l1 + log_size l2)%nat.
Proof. induction l1 as [|[s ds] r IH]; cbn [app log_size]; [|rewrite IH]; lia. Qed.

Lemma chunk_len_ge ds : (9 <= chunk_len ds)%nat.
Proof. unfold chunk_len, chunk_hdr. pose proof (put_varint_nonempty (Z.of_nat (length (payload ds) + 8))). lia. Qed.

Lemma skipn_render l1 : forall base l2,
  skipn (log_size l1) (render base (l1 ++ l2)) = render (base + log_size l1) l2.
Proof.
  induction l1 as [|[s ds] r IH]; intros base l2; cbn [app log_size].
  - rewrite Nat.add_0_r. reflexivity.
  - cbn [render]. rewrite !app_assoc.
    rewrite (skipn_app (chunk_len ds + log_size r)).
    rewrite skipn_all2; rewrite !app_length, link_bytes_length; unfold chunk_len at 1; [|lia].
    cbn [app].
    replace (chunk_len ds + log_size r - _)%nat with (log_size r) by (unfold chunk_len; lia).
    rewrite IH. f_equal. lia.
Qed.

Lemma next_off_none s log : forall base, next_off s base log = (-1)%Z <-> ~ In s (map fst log).
Proof.
  induction log as [|[s' ds] r IH]; intros base; cbn [next_off map fst In].
  - tauto.
  - destruct (Nat.eqb_spec s' s) as [->|H].
    + split; [lia | tauto].
    + rewrite IH. tauto.
Qed.

Lemma next_off_range s log : forall base,
  next_off s base log = (-1)%Z \/
  (Z.of_nat base <= next_off s base log < Z.of_nat (base + log_size log))%Z.
Proof.
  induction log as [|[s' ds] r IH]; intros base; cbn [next_off log_size]; [auto|].
  pose proof (chunk_len_ge ds).
  destruct (Nat.eqb_spec s' s) as [->|H1]; [lia|].
  destruct (IH (base + chunk_len ds)%nat); lia.
Qed.

Lemma link_pos_none s log : forall base, link_pos s base log = (-1)%Z <-> ~ In s (map fst log).
Proof.
  induction log as [|[s' ds] r IH]; intros base; cbn [link_pos map fst In]; [tauto|].
  pose proof (chunk_len_ge ds).
  destruct (Z.eqb_spec (link_pos s (base + chunk_len ds) r) (-1)) as [E|E].
  - rewrite IH in E. destruct (Nat.eqb_spec s' s) as [->|H1].
    + split; [lia | tauto].
    + tauto.
  - pose proof E as E'. rewrite IH in E'. tauto.
Qed.

Lemma link_pos_range s log : forall base,
  link_pos s base log = (-1)%Z \/
  (Z.of_nat base <= link_pos s base log /\ link_pos s base log + 8 <= Z.of_nat (base + log_size log))%Z.
Proof.
  induction log as [|[s' ds] r IH]; intros base; cbn [link_pos log_size]; [auto|].
  pose proof (chunk_len_ge ds).
  destruct (Z.eqb_spec (link_pos s (base + chunk_len ds) r) (-1)) as [E|E].
  - destruct (Nat.eqb_spec s' s); lia.
  - destruct (IH (base + chunk_len ds)%nat); lia.
Qed.

Lemma next_off_snoc s s' ds log : forall base,
  next_off s base (log ++ [(s', ds)]) =
  if (next_off s base log =? -1)%Z
  then if (s' =? s)%nat then Z.of_nat (base + log_size log) else (-1)%Z
  else next_off s base log.
Proof.
  induction log as [|[s0 ds0] r IH]; intros base; cbn [app next_off log_size].
  - rewrite Nat.add_0_r. reflexivity.
  - destruct (Nat.eqb_spec s0 s) as [->|H].
    + destruct (Z.eqb_spec (Z.of_nat base) (-1)); [lia|reflexivity].
    + rewrite IH. rewrite Nat.add_assoc. reflexivity.
Qed.

Lemma link_pos_snoc s s' ds log : forall base,
  link_pos s base (log ++ [(s', ds)]) =
  if (s' =? s)%nat then (Z.of_nat (base + log_size log + chunk_len ds) - 8)%Z else link_pos s base log.
Proof.
  induction log as [|[s0 ds0] r IH]; intros base; cbn [app link_pos log_size].
  - change (-1 =? -1)%Z with true. cbn iota. rewrite Nat.add_0_r. reflexivity.
  - rewrite IH. pose proof (chunk_len_ge ds0). pose proof (chunk_len_ge ds).
    destruct (Nat.eqb_spec s' s) as [->|H1].
    + destruct (Z.eqb_spec (Z.of_nat (base + chunk_len ds0 + log_size r + chunk_len ds) - 8) (-1)); [lia|].
      f_equal. lia.
    + reflexivity.
Qed.

Lemma chunks_snoc s s' ds log :
  chunks s (log ++ [(s', ds)]) = chunks s log ++ (if (s' =? s)%nat then [ds] else []).
Proof.
  unfold chunks. rewrite filter_app, map_app. f_equal. cbn [filter fst].
  destruct (s' =? s)%nat; reflexivity.
Qed.

Definition last_chunk (ds : list N) : bytes := chunk_hdr ds ++ payload ds ++ link_bytes (-1).

(** Appending an entry to the log is: patch the link of the slot's last chunk, then append. *)
Lemma render_snoc s ds log : forall base,
  render base (log ++ [(s, ds)]) =
  (if (link_pos s base log =? -1)%Z then render base log
   else pwrite (render base log) (Z.to_nat (link_pos s base log) - base)
               (link_bytes (Z.of_nat (base + log_size log)))) ++ last_chunk ds.
Proof.
  induction log as [|[s0 ds0] r IH]; intros base.
  - cbn [app link_pos render]. change (-1 =? -1)%Z with true. cbn iota.
    cbn [next_off app]. rewrite app_nil_r. reflexivity.
  - cbn [app render link_pos log_size]. rewrite IH, next_off_snoc.
    pose proof (chunk_len_ge ds0) as G.
    pose proof (link_pos_none s r (base + chunk_len ds0)) as L.
    pose proof (next_off_none s r (base + chunk_len ds0)) as NO.
    destruct (Z.eqb_spec (link_pos s (base + chunk_len ds0) r) (-1)) as [E|E].
    + apply L in E. rewrite <- NO in E.
      destruct (Nat.eqb_spec s0 s) as [->|H].
      * rewrite Nat.eqb_refl, E. change (-1 =? -1)%Z with true. cbn iota.
        destruct (Z.eqb_spec (Z.of_nat (base + chunk_len ds0) - 8) (-1)); [lia|].
        rewrite pwrite_at3;
          [|unfold chunk_len; lia | rewrite !link_bytes_length; reflexivity].
        rewrite <- !app_assoc.
        replace (base + (chunk_len ds0 + log_size r))%nat with (base + chunk_len ds0 + log_size r)%nat by lia.
        reflexivity.
      * assert ((s =? s0)%nat = false) as -> by (apply Nat.eqb_neq; congruence).
        change (-1 =? -1)%Z with true. cbn iota.
        rewrite <- !app_assoc. repeat f_equal.
        destruct (Z.eqb_spec (next_off s0 (base + chunk_len ds0) r) (-1)); congruence.
    + destruct (Z.eqb_spec (link_pos s (base + chunk_len ds0) r) (-1)); [congruence|].
      destruct (link_pos_range s r (base + chunk_len ds0)) as [|R]; [congruence|].
      rewrite (pwrite_past3 _ _ _ _ _ _
        (Z.to_nat (link_pos s (base + chunk_len ds0) r) - (base + chunk_len ds0)))
        by (rewrite link_bytes_length; unfold chunk_len in *; lia).
      rewrite <- !app_assoc.
      replace (base + (chunk_len ds0 + log_size r))%nat with (base + chunk_len ds0 + log_size r)%nat by lia.
      do 2 f_equal. f_equal.
      * destruct (Z.eqb_spec (next_off s0 (base + chunk_len ds0) r) (-1)) as [E1|E1]; [|reflexivity].
        rewrite E1. destruct (Nat.eqb_spec s s0) as [->|]; [|reflexivity].
        apply next_off_none in E1. apply L in E1. congruence.
Qed.

(** * Flushing *)
Lemma flush_to_spec s log p f ds :
  f = render 0 log -> p_link p = link_pos s 0 log -> p_head p = next_off s 0 log ->
  p_posts p = payload ds -> ds <> [] ->
  let '(p', ws) := flush_to p f in
  apply_wops f ws = render 0 (log ++ [(s, ds)]) /\
  p' = MkPoster (link_pos s 0 (log ++ [(s, ds)])) (next_off s 0 (log ++ [(s, ds)]))
                (p_current p) (p_total p) [].
Proof.
  intros Hf Hl Hh Hp Hd. unfold flush_to. rewrite Hp.
  assert (payload ds <> []) as Hne.
  { destruct ds as [|d r]; [congruence|]. intros E. apply (f_equal (@length N)) in E.
    unfold payload in E. cbn [map concat] in E. rewrite app_length in E.
    pose proof (put_uvarint_nonempty d). cbn [length] in E. lia. }
  assert (forall A (a b : A), match payload ds with [] => a | _ => b end = b) as M
    by (intros; destruct (payload ds); congruence).
  rewrite M. clear M Hne.
  change (u64_of_i64 (-1)) with 18446744073709551615.
  change (put_be64 18446744073709551615) with (link_bytes (-1)).
  assert (Hlen : length f = log_size log) by (subst f; apply render_length).
  rewrite Hl, Hh, Hlen. unfold zlen. rewrite app_length, link_bytes_length.
  change (put_varint (Z.of_nat (length (payload ds) + 8))) with (chunk_hdr ds).
  rewrite next_off_snoc, link_pos_snoc, Nat.eqb_refl, render_snoc.
  assert (link_pos s 0 log = -1 <-> next_off s 0 log = -1)%Z as Hiff
    by (rewrite link_pos_none, next_off_none; tauto).
  split.
  - unfold apply_wops. rewrite fold_left_app. cbn [fold_left fst snd].
    match goal with |- pwrite (pwrite ?F _ _) _ _ = ?G ++ _ => assert (F = G /\ length F = length f) as [E EL] end.
    { destruct (Z.eqb_spec (link_pos s 0 log) (-1)) as [E|E]; cbn [negb fold_left fst snd].
      - subst f. auto.
      - rewrite Nat.sub_0_r, Nat.add_0_l. subst f. split; [reflexivity|].
        destruct (link_pos_range s log 0) as [|R]; [congruence|].
        apply pwrite_length_in. rewrite link_bytes_length || rewrite put_be64_length.
        rewrite render_length. lia. }
    rewrite E in *. clear E.
    match goal with |- pwrite (pwrite ?F _ _) _ _ = _ => set (G := F) in * end.
    rewrite <- Hlen, <- EL, pwrite_end.
    replace (length G + length (chunk_hdr ds))%nat with (length (G ++ chunk_hdr ds)) by apply app_length.
    rewrite pwrite_end. unfold last_chunk. rewrite <- !app_assoc. reflexivity.
  - f_equal.
    + unfold chunk_len. lia.
    + rewrite Nat.add_0_l.
      destruct (Z.eqb_spec (link_pos s 0 log) (-1)) as [E|E];
      destruct (Z.eqb_spec (next_off s 0 log) (-1)) as [E'|E']; cbn [negb]; tauto || reflexivity.
Qed.

(** * Decoding *)
Lemma last_indep {A} (x : A) l a b : last (x :: l) a = last (x :: l) b.
Proof. revert x. induction l as [|y l IH]; intros x; [reflexivity|]. apply (IH y). Qed.

(** Running sums: the document ids encoded by a list of deltas. *)
Fixpoint sums (c : N) (ds : list N) : list N :=
  match ds with [] => [] | d :: r => add32 c d :: sums (add32 c d) r end.
Lemma sums_app c l1 l2 : sums c (l1 ++ l2) = sums c l1 ++ sums (last (sums c l1) c) l2.
Proof.
  revert c; induction l1 as [|d r IH]; intros c; [reflexivity|].
  cbn [app sums]. rewrite IH. cbn [app]. f_equal. f_equal. f_equal.
  destruct (sums (add32 c d) r) as [|x l] eqn:E; [reflexivity|].
  cbn [last]. clear. revert x. induction l as [|y l IH]; intros x; [reflexivity|].
  cbn [last] in *. apply IH.
Qed.
Lemma sums_length c ds : length (sums c ds) = length ds.
Proof. revert c; induction ds; intros; cbn [sums length]; auto. Qed.

Definition d32 (d : N) : Prop := d < 4294967296.

Lemma decode_chunk_spec ds : forall fuel i cur ids tail,
  (length ds <= fuel)%nat -> ds <> [] -> Forall d32 ds ->
  decode_chunk fuel (payload ds ++ tail) i (i + Z.of_nat (length (payload ds))) cur ids =
  Ok (ids ++ sums cur ds, last (sums cur ds) cur, tail).
Proof.
  induction ds as [|d r IH]; intros fuel i cur ids tail Hf Hne Hd; [congruence|].
  destruct fuel as [|k]; [cbn [length] in Hf; lia|].
  inv Hd. unfold d32 in H1. cbn [decode_chunk].
  change (payload (d :: r)) with (put_uvarint d ++ payload r).
  rewrite <- app_assoc, uvarint_put by lia.
  pose proof (put_uvarint_nonempty d) as Hn.
  assert ((Z.of_nat (length (put_uvarint d)) <=? 0)%Z = false) as -> by lia.
  assert ((4294967296 <=? d) = false) as -> by lia.
  rewrite Nat2Z.id, skipn_app_exact by reflexivity.
  rewrite app_length.
  destruct r as [|d' r'].
  - change (payload []) with (@nil N). cbn [length app sums last].
    assert ((i + Z.of_nat (length (put_uvarint d) + 0) <? i + Z.of_nat (length (put_uvarint d)))%Z = false) as -> by lia.
    assert ((i + Z.of_nat (length (put_uvarint d)) =? i + Z.of_nat (length (put_uvarint d) + 0))%Z = true) as -> by lia.
    reflexivity.
  - assert (1 <= length (payload (d' :: r')))%nat as Hp.
    { change (payload (d' :: r')) with (put_uvarint d' ++ payload r'). rewrite app_length.
      pose proof (put_uvarint_nonempty d'). lia. }
    set (P := payload (d' :: r')) in *.
    assert ((i + Z.of_nat (length (put_uvarint d) + length P) <? i + Z.of_nat (length (put_uvarint d)))%Z = false) as -> by lia.
    assert ((i + Z.of_nat (length (put_uvarint d)) =? i + Z.of_nat (length (put_uvarint d) + length P))%Z = false) as -> by lia.
    replace (i + Z.of_nat (length (put_uvarint d) + length P))%Z
      with ((i + Z.of_nat (length (put_uvarint d))) + Z.of_nat (length P))%Z by lia.
    unfold P. rewrite IH; [|cbn [length] in *; lia|congruence|assumption].
    cbn [sums]. rewrite <- app_assoc. cbn [app].
    change (last (add32 cur d :: add32 (add32 cur d) d' :: sums (add32 (add32 cur d) d') r') cur)
      with (last (add32 (add32 cur d) d' :: sums (add32 (add32 cur d) d') r') cur).
    rewrite (last_indep _ _ cur (add32 cur d)). reflexivity.
Qed.

(** pread of one byte / of a prefix, in terms of [skipn]. *)
Lemma pread_skipn f off d rest : (0 < length d)%nat ->
  skipn off f = d ++ rest -> pread f (Z.of_nat off) (Z.of_nat (length d)) = Ok d.
Proof.
  intros Hd H. unfold pread, zlen.
  assert (length f - off = length d + length rest)%nat as L
    by (rewrite <- skipn_length, H, app_length; lia).
  assert ((Z.of_nat off <? 0)%Z = false) as -> by lia.
  assert ((Z.of_nat (length d) <=? 0)%Z = false) as -> by lia.
  assert ((Z.of_nat off + Z.of_nat (length d) <=? Z.of_nat (length f))%Z = true) as -> by lia.
  rewrite !Nat2Z.id, H, firstn_app_exact by reflexivity. reflexivity.
Qed.

Lemma skipn_add {A} (l : list A) a b : skipn (a + b) l = skipn b (skipn a l).
Proof. revert l; induction a as [|a IH]; intros [|x l]; cbn [Nat.add skipn]; auto. rewrite skipn_nil. reflexivity. Qed.

Lemma read_varint_at_aux_spec f p l b rest : b < 128 -> Forall (fun c => 128 <= c) l ->
  forall fuel n buf, skipn (p + n) f = l ++ b :: rest -> (length l < fuel)%nat ->
  read_varint_at_aux fuel f (Z.of_nat p) (Z.of_nat n) buf =
  let '(v, m) := varint (buf ++ l ++ [b]) in
  if (m <=? 0)%Z then Err EOther else Ok (v, Z.of_nat (n + length l + 1)).
Proof.
  intros Hb Hl. induction l as [|c l IH]; intros fuel n buf H Hf; destruct fuel as [|k]; cbn [length] in *; try lia;
  cbn [read_varint_at_aux].
  - cbn [app] in *. rewrite <- Nat2Z.inj_add.
    change 1%Z with (Z.of_nat (length [b])) at 1.
    rewrite (pread_skipn f (p + n) [b] rest) by (cbn [length]; auto; lia).
    cbn [bind]. assert ((b <? 128) = true) as -> by lia.
    destruct (varint (buf ++ [b])) as [v m]. destruct (m <=? 0)%Z; [reflexivity|].
    do 2 f_equal. lia.
  - inv Hl. rewrite <- Nat2Z.inj_add. cbn [app] in *.
    change 1%Z with (Z.of_nat (length [c])) at 1.
    rewrite (pread_skipn f (p + n) [c] (l ++ b :: rest)) by (cbn [length app]; auto; lia).
    cbn [bind]. assert ((c <? 128) = false) as -> by lia.
    replace (Z.of_nat n + 1)%Z with (Z.of_nat (S n)) by lia.
    rewrite IH.
    + rewrite <- app_assoc. cbn [app]. destruct (varint (buf ++ c :: l ++ [b])) as [v m].
      destruct (m <=? 0)%Z; [reflexivity|]. do 2 f_equal. lia.
    + assumption.
    + replace (p + S n)%nat with ((p + n) + 1)%nat by lia. rewrite skipn_add, H. reflexivity.
    + lia.
Qed.

Lemma read_varint_at_spec f p z rest :
  (-9223372036854775808 <= z < 9223372036854775808)%Z ->
  skipn p f = put_varint z ++ rest ->
  read_varint_at f (Z.of_nat p) = Ok (z, zlen (put_varint z)).
Proof.
  intros Hz H. unfold read_varint_at.
  pose proof (varint_put z [] Hz) as V. rewrite app_nil_r in V.
  pose proof (put_varint_len z) as Ln.
  destruct (put_uvarint_shape (zigzag z) (zigzag_range z Hz)) as (l & b & E & Hb & Hl).
  unfold put_varint in *. rewrite E in *.
  change 0%Z with (Z.of_nat 0).
  rewrite (read_varint_at_aux_spec f p l b rest Hb Hl).
  - cbn [app]. rewrite V. unfold zlen. rewrite app_length in *. cbn [length] in *.
    assert ((Z.of_nat (length l + 1) <=? 0)%Z = false) as -> by lia. reflexivity.
  - rewrite Nat.add_0_r, H, <- app_assoc. reflexivity.
  - rewrite app_length in Ln. cbn [length] in Ln. unfold max_varint_len64. lia.
Qed.

(** What flushing guarantees of every entry. *)
Definition entry_ok (e : entry) : Prop :=
  snd e <> [] /\ Forall d32 (snd e) /\ (length (payload (snd e)) <= 516)%nat.
Definition log_ok (log : list entry) : Prop := Forall entry_ok log.

Lemma payload_length_ge ds : (length ds <= length (payload ds))%nat.
Proof.
  induction ds as [|d r IH]; [auto|]. change (payload (d :: r)) with (put_uvarint d ++ payload r).
  rewrite app_length. pose proof (put_uvarint_nonempty d). cbn [length]. lia.
Qed.

Lemma payload_app l1 l2 : payload (l1 ++ l2) = payload l1 ++ payload l2.
Proof. unfold payload. rewrite map_app. apply concat_app. Qed.

(** The reader consumes the chunks of its slot one by one. *)
Lemma read_next_spec log l1 s ds l2 r :
  log = l1 ++ (s, ds) :: l2 -> log_ok log -> (Z.of_nat (log_size log) < 9223372036854775808)%Z ->
  r_nextpos r = Z.of_nat (log_size l1) ->
  read_next r (render 0 log) =
  Ok (MkPosts 0 (next_off s (log_size l1 + chunk_len ds) l2)
        (last (sums (r_current r) ds) (r_current r)) (sums (r_current r) ds)).
Proof.
  intros -> Hok Hsz Hr. unfold read_next. rewrite Hr.
  pose proof (skipn_render l1 0 ((s, ds) :: l2)) as Sk. rewrite Nat.add_0_l in Sk. cbn [render] in Sk.
  set (f := render 0 (l1 ++ (s, ds) :: l2)) in *.
  set (lk := next_off s (log_size l1 + chunk_len ds) l2) in *.
  apply Forall_app in Hok. destruct Hok as [_ Hok]. inv Hok. destruct H1 as (Hne & Hd & Hp). cbn [snd] in *.
  rewrite (read_varint_at_spec f (log_size l1) (Z.of_nat (length (payload ds) + 8)) _ ltac:(lia) Sk).
  cbn [wrap_err bind]. fold (chunk_hdr ds).
  unfold reader_buf.
  assert ((Z.of_nat (length (payload ds) + 8) <? 0)%Z || (530 <? Z.of_nat (length (payload ds) + 8))%Z = false) as ->
    by (apply orb_false_intro; lia).
  unfold zlen. rewrite <- Nat2Z.inj_add.
  replace (length (payload ds) + 8)%nat with (length (payload ds ++ link_bytes lk))
    by (rewrite app_length, link_bytes_length; reflexivity).
  rewrite (pread_skipn _ _ _ (render (log_size l1 + chunk_len ds) l2)).
  2: rewrite app_length, link_bytes_length; lia.
  2: rewrite skipn_add, Sk, skipn_app_exact by reflexivity; rewrite <- app_assoc; reflexivity.
  cbn [wrap_err bind].
  rewrite app_length, link_bytes_length.
  replace (Z.of_nat (length (payload ds) + 8) - 8)%Z with (0 + Z.of_nat (length (payload ds)))%Z by lia.
  rewrite decode_chunk_spec; auto.
  2: pose proof (payload_length_ge ds); lia.
  cbn [bind app]. do 2 f_equal.
  unfold link_bytes. rewrite <- (app_nil_r (put_be64 _)), be64_put by apply u64_of_i64_range.
  apply i64_u64. unfold lk.
  destruct (next_off_range s l2 (log_size l1 + chunk_len ds)) as [->|R]; [lia|].
  rewrite log_size_app in Hsz. cbn [log_size] in Hsz. lia.
Qed.

Lemma reads_drain f ids : forall r k, reads f r ids -> drain k f r = Ok (firstn k ids).
Proof.
  induction ids as [|d ids IH]; intros r [|k] H; cbn [reads drain firstn] in *; auto.
  - rewrite H. reflexivity.
  - destruct H as (r' & H1 & H2). rewrite H1, (IH _ _ H2). reflexivity.
Qed.

Lemma reads_buffered f rest : forall todo i np cur done,
  i = length done ->
  reads f (MkPosts (length (done ++ todo)) np cur (done ++ todo)) rest ->
  reads f (MkPosts i np cur (done ++ todo)) (todo ++ rest).
Proof.
  induction todo as [|d t IH]; intros i np cur done -> H.
  - rewrite !app_nil_r in *. exact H.
  - cbn [app reads]. unfold posts_next. cbn [r_i r_docids r_nextpos r_current].
    assert ((length done =? length (done ++ d :: t))%nat = false) as ->
      by (rewrite app_length; cbn [length]; lia).
    cbn [bind r_i r_docids]. rewrite nth_error_app2, Nat.sub_diag by lia. cbn [nth_error].
    eexists. split; [reflexivity|].
    replace (done ++ d :: t) with ((done ++ [d]) ++ t) in * by (rewrite <- app_assoc; reflexivity).
    apply IH; [rewrite app_length; cbn [length]; lia|]. exact H.
Qed.

Lemma reads_log log s : log_ok log -> (Z.of_nat (log_size log) < 9223372036854775808)%Z ->
  forall l2 l1 n cur ids, log = l1 ++ l2 -> n = length ids ->
  reads (render 0 log) (MkPosts n (next_off s (log_size l1) l2) cur ids) (sums cur (concat (chunks s l2))).
Proof.
  intros Hok Hsz. induction l2 as [|[s' ds] r IH]; intros l1 n cur ids Hlog Hn.
  - cbn [next_off chunks filter map concat sums reads]. unfold posts_next.
    cbn [r_i r_docids r_nextpos]. assert ((n =? length ids)%nat = true) as -> by (apply Nat.eqb_eq; auto).
    change (-1 =? -1)%Z with true. reflexivity.
  - assert (log_size (l1 ++ [(s', ds)]) = (log_size l1 + chunk_len ds)%nat) as Hls
      by (rewrite log_size_app; cbn [log_size]; lia).
    destruct (Nat.eqb_spec s' s) as [->|Hs].
    + assert (chunks s ((s, ds) :: r) = ds :: chunks s r) as ->
        by (unfold chunks; cbn [filter fst]; rewrite Nat.eqb_refl; reflexivity).
      cbn [concat next_off]. rewrite Nat.eqb_refl, sums_app.
      assert (ds <> []) as Hne.
      { rewrite Hlog in Hok. apply Forall_app in Hok. destruct Hok as [_ Hok]. inv Hok. apply H1. }
      set (lst := last (sums cur ds) cur).
      assert (reads (render 0 log)
                (MkPosts 0 (next_off s (log_size l1 + chunk_len ds) r) lst (sums cur ds))
                (sums cur ds ++ sums lst (concat (chunks s r)))) as H.
      { apply (reads_buffered _ _ (sums cur ds) 0 _ _ []); [reflexivity|]. cbn [app].
        rewrite <- Hls. apply IH; [|reflexivity]. rewrite <- app_assoc. exact Hlog. }
      destruct ds as [|d0 ds0]; [congruence|]. cbn [sums app] in H |- *. cbn [reads] in H |- *.
      destruct H as (r' & H1 & H2). exists r'. split; [|exact H2].
      rewrite <- H1. unfold posts_next at 1. cbn [r_i r_docids r_nextpos].
      assert ((n =? length ids)%nat = true) as -> by (apply Nat.eqb_eq; auto).
      destruct (Z.eqb_spec (Z.of_nat (log_size l1)) (-1)); [lia|].
      rewrite (read_next_spec log l1 s (d0 :: ds0) r) by (auto; reflexivity).
      cbn [bind r_i r_docids r_current sums]. fold lst.
      unfold posts_next. cbn [r_i r_docids]. cbn [length Nat.eqb bind]. reflexivity.
    + assert (chunks s ((s', ds) :: r) = chunks s r) as ->
        by (unfold chunks; cbn [filter fst]; destruct (Nat.eqb_spec s' s); [congruence|reflexivity]).
      cbn [next_off]. destruct (Nat.eqb_spec s' s); [congruence|].
      rewrite <- Hls. apply IH; [|assumption]. rewrite <- app_assoc. exact Hlog.
Qed.

(** The appender finds the last link. *)
Lemma read_to_link_aux_spec log s p : log_ok log -> (Z.of_nat (log_size log) < 9223372036854775808)%Z ->
  forall l2 l1 fuel, log = l1 ++ l2 -> (length l2 < fuel)%nat -> In s (map fst l2) ->
  read_to_link_aux fuel p (render 0 log) (next_off s (log_size l1) l2) =
  Ok (MkPoster (link_pos s (log_size l1) l2) (p_head p) (p_current p) (p_total p) (p_posts p)).
Proof.
  intros Hok Hsz. induction l2 as [|[s' ds] r IH]; intros l1 fuel Hlog Hf Hin; [destruct Hin|].
  assert (log_size (l1 ++ [(s', ds)]) = (log_size l1 + chunk_len ds)%nat) as Hls
    by (rewrite log_size_app; cbn [log_size]; lia).
  cbn [next_off link_pos]. cbn [map fst In] in Hin.
  destruct (Nat.eqb_spec s' s) as [->|Hs].
  - destruct fuel as [|k]; [lia|]. cbn [read_to_link_aux].
    pose proof (skipn_render l1 0 ((s, ds) :: r)) as Sk. rewrite <- Hlog, Nat.add_0_l in Sk. cbn [render] in Sk.
    set (lk := next_off s (log_size l1 + chunk_len ds) r) in *.
    assert (entry_ok (s, ds)) as (Hne & Hd & Hp).
    { rewrite Hlog in Hok. apply Forall_app in Hok. destruct Hok as [_ Hok]. inv Hok. assumption. }
    cbn [snd] in *.
    rewrite (read_varint_at_spec _ (log_size l1) (Z.of_nat (length (payload ds) + 8)) _ ltac:(lia) Sk).
    cbn [bind]. fold (chunk_hdr ds).
    assert (1 <= length (payload ds))%nat as Hpl.
    { pose proof (payload_length_ge ds). destruct ds; [congruence|]. cbn [length] in *. lia. }
    assert ((Z.of_nat (length (payload ds) + 8) <=? 8)%Z = false) as -> by lia.
    unfold zlen. rewrite <- Nat2Z.inj_add.
    replace (length (payload ds) + 8)%nat with (length (payload ds ++ link_bytes lk))
      by (rewrite app_length, link_bytes_length; reflexivity).
    rewrite (pread_skipn _ _ _ (render (log_size l1 + chunk_len ds) r)).
    2: rewrite app_length, link_bytes_length; lia.
    2: rewrite skipn_add, Sk, skipn_app_exact by reflexivity; rewrite <- app_assoc; reflexivity.
    cbn [bind]. rewrite app_length, link_bytes_length, Nat2Z.id.
    rewrite skipn_app_exact by lia.
    assert (i64_of_u64 (be64 (link_bytes lk)) = lk) as ->.
    { unfold link_bytes. rewrite <- (app_nil_r (put_be64 _)), be64_put by apply u64_of_i64_range.
      apply i64_u64. unfold lk.
      destruct (next_off_range s r (log_size l1 + chunk_len ds)) as [->|R]; [lia|].
      rewrite Hlog, log_size_app in Hsz. cbn [log_size] in Hsz. lia. }
    unfold lk.
    destruct (Z.eqb_spec (next_off s (log_size l1 + chunk_len ds) r) (-1)) as [E|E].
    + apply next_off_none in E. pose proof E as E2. rewrite <- (link_pos_none s r (log_size l1 + chunk_len ds)) in E2.
      rewrite E2. change (-1 =? -1)%Z with true. cbn iota. do 2 f_equal. unfold chunk_len. lia.
    + pose proof E as E2. rewrite next_off_none in E2.
      rewrite <- Hls. rewrite IH.
      * destruct (Z.eqb_spec (link_pos s (log_size (l1 ++ [(s, ds)])) r) (-1)) as [E3|E3]; [|reflexivity].
        apply link_pos_none in E3. tauto.
      * rewrite <- app_assoc. exact Hlog.
      * cbn [length] in Hf. lia.
      * destruct (in_dec Nat.eq_dec s (map fst r)); tauto.
  - destruct Hin as [|Hin]; [congruence|].
    rewrite <- Hls. rewrite IH; auto.
    + destruct (Z.eqb_spec (link_pos s (log_size (l1 ++ [(s', ds)])) r) (-1)) as [E3|E3]; [|reflexivity].
      apply link_pos_none in E3. tauto.
    + rewrite <- app_assoc. exact Hlog.
    + cbn [length] in Hf. lia.
Qed.

Lemma log_size_ge log : (length log <= log_size log)%nat.
Proof. induction log as [|[s ds] r IH]; [auto|]. cbn [length log_size]. pose proof (chunk_len_ge ds). lia. Qed.

Lemma read_to_link_spec log s p : log_ok log -> (Z.of_nat (log_size log) < 9223372036854775808)%Z ->
  p_head p = next_off s 0 log -> p_link p = (-1)%Z ->
  read_to_link p (render 0 log) =
  Ok (MkPoster (link_pos s 0 log) (p_head p) (p_current p) (p_total p) (p_posts p)).
Proof.
  intros Hok Hsz Hh Hl. unfold read_to_link. rewrite Hl, Hh.
  destruct (Z.eqb_spec (next_off s 0 log) (-1)) as [E|E].
  - destruct p as [lk hd cu to po]. cbn in *. subst. do 2 f_equal.
    apply next_off_none in E. symmetry. apply link_pos_none. exact E.
  - change (-1 =? -1)%Z with true. cbn [negb]. rewrite next_off_none in E.
    pose proof (read_to_link_aux_spec log s p Hok Hsz log [] (S (length (render 0 log)))) as H.
    cbn [log_size] in H. rewrite H; auto.
    + rewrite Hh. reflexivity.
    + rewrite render_length. pose proof (log_size_ge log). lia.
    + destruct (in_dec Nat.eq_dec s (map fst log)); tauto.
Qed.
