(** A shard one of whose writes fails. *)
From Verif Require Import Model.Base Model.Varint Model.Post Model.Poster Model.Shard Model.Fault
  Spec.Postings Spec.Reading Proof.Tactics Proof.VarintP Proof.PosterP Proof.ShardP Proof.KeepP Proof.FaultP.
Local Open Scope N_scope.

(** * One slot *)
Definition chunk_ok (ds : list N) : Prop := ds <> [] /\ Forall d32 ds /\ (length (payload ds) <= 521)%nat.
Definition right (B s : nat) (items : list item) (fin : nat -> bytes) (p : poster) (ids : list N) : Prop :=
  p_link p = ilink s 0 items /\ p_head p = inext s 0 items /\
  p_current p = last ids 0 /\ p_total p = u32 (nlen ids) /\ Forall d32 ids /\
  exists dss pend, ichunks s items = map payload dss /\ Forall chunk_ok dss /\
    p_posts p = payload pend /\ Forall d32 pend /\ (length (payload pend) <= B)%nat /\
    sums 0 (concat dss ++ pend) = ids /\ (fin s = ff8 \/ pend <> []).
(** A chunk with eight bytes 0xff among its posts. *)
Definition bad_payload (pl : bytes) : Prop :=
  exists pend tail, pl = payload pend ++ ff8 ++ tail /\ pend <> [] /\ Forall d32 pend.
Definition ranges (p : poster) : Prop := p_current p < 4294967296 /\ p_total p < 4294967296.
(** Such posts are waiting to be written; *)
Definition broken (B s : nat) (items : list item) (p : poster) : Prop :=
  p_link p = ilink s 0 items /\ (ilink s 0 items = (-1)%Z \/ p_head p = inext s 0 items) /\ ranges p /\
  (length (p_posts p) <= B)%nat /\ bad_payload (p_posts p) /\
  exists dss, ichunks s items = map payload dss /\ Forall chunk_ok dss.
(** they have been written. *)
Definition dead (B s : nat) (items : list item) (p : poster) : Prop :=
  p_link p = ilink s 0 items /\ p_head p = inext s 0 items /\ ranges p /\ (length (p_posts p) <= B)%nat /\
  exists dss b rest, ichunks s items = map payload dss ++ b :: rest /\ Forall chunk_ok dss /\ bad_payload b.

Lemma payload_nil ds : payload ds = [] -> ds = [].
Proof. intros H. pose proof (payload_length_ge ds) as L. rewrite H in L. destruct ds; [reflexivity|cbn in L; lia]. Qed.

Lemma right_le B B' s items fin p ids : (B <= B')%nat -> right B s items fin p ids -> right B' s items fin p ids.
Proof.
  intros L (H1 & H2 & H3 & H4 & H5 & dss & pend & D1 & D2 & D3 & D4 & D5 & D6 & D7).
  repeat split; auto. exists dss, pend. repeat split; auto. lia.
Qed.

Lemma ext_chunks s items fin items' fin' s' : ext s items fin items' fin' -> s' <> s ->
  ichunks s' items' = ichunks s' items /\ inext s' 0 items' = inext s' 0 items /\
  ilink s' 0 items' = ilink s' 0 items /\ fin' s' = fin s'.
Proof.
  intros [(tl & -> & T) F] Hs. specialize (T s' Hs). rewrite ichunks_app, T, app_nil_r, inext_app, ilink_app.
  rewrite (proj2 (inext_none s' tl _) T), (proj2 (ilink_none s' tl _) T).
  change (-1 =? -1)%Z with true. cbn iota. split; [reflexivity|]. split; [|auto].
  destruct (Z.eqb_spec (inext s' 0 items) (-1)); congruence.
Qed.
Lemma right_ext B s items fin items' fin' s' p ids : ext s items fin items' fin' -> s' <> s ->
  right B s' items fin p ids -> right B s' items' fin' p ids.
Proof. intros E Hs. destruct (ext_chunks _ _ _ _ _ _ E Hs) as (E1 & E2 & E3 & E4). unfold right. rewrite E1, E2, E3, E4. auto. Qed.
Lemma broken_ext B s items fin items' fin' s' p : ext s items fin items' fin' -> s' <> s ->
  broken B s' items p -> broken B s' items' p.
Proof. intros E Hs. destruct (ext_chunks _ _ _ _ _ _ E Hs) as (E1 & E2 & E3 & E4). unfold broken. rewrite E1, E2, E3. auto. Qed.
Lemma dead_ext B s items fin items' fin' s' p : ext s items fin items' fin' -> s' <> s ->
  dead B s' items p -> dead B s' items' p.
Proof. intros E Hs. destruct (ext_chunks _ _ _ _ _ _ E Hs) as (E1 & E2 & E3 & E4). unfold dead. rewrite E1, E2, E3. auto. Qed.

Definition grows (f f' : bytes) : Prop := (length f' <= length f + 547)%nat.

Lemma right_ranges B s items fin p ids : right B s items fin p ids -> ranges p.
Proof.
  intros (_ & _ & H3 & H4 & H5 & _). split; [rewrite H3; apply last_d32; exact H5|rewrite H4; unfold u32; lia].
Qed.

Lemma right_flush B s items fin p ids f ft p' f' ft' e :
  (B <= 521)%nat -> (B <= 516)%nat \/ ft = None ->
  fin8 fin -> f = irender fin 0 items -> right B s items fin p ids ->
  flush_to_f p f ft = (p', f', ft', e) ->
  exists items' fin', fin8 fin' /\ f' = irender fin' 0 items' /\ ext s items fin items' fin' /\ grows f f' /\
    match e with
    | None => unfailed ft ft' /\ right 0 s items' fin' p' ids
    | Some FLink => ft <> None /\ ft' = None /\ right B s items' fin' p' ids
    | Some _ => ft <> None /\ ft' = None /\ broken 524 s items' p'
    end.
Proof.
  intros HB HB' F Hf R H. pose proof (right_ranges _ _ _ _ _ _ R) as RR.
  destruct R as (H1 & H2 & H3 & H4 & H5 & dss & pend & D1 & D2 & D3 & D4 & D5 & D6 & D7).
  destruct (p_posts p) as [|b0 r0] eqn:Ep.
  - unfold flush_to_f in H. rewrite Ep in H. inv H. exists items, fin.
    split; [exact F|]. split; [reflexivity|]. split; [apply ext_refl|]. split; [unfold grows; lia|].
    split; [unfold unfailed; auto|]. repeat split; auto. exists dss, pend. repeat split; auto; [congruence|rewrite <- D3; cbn; lia].
  - rewrite <- Ep in *. assert (pend <> []) as Hpe by (intros ->; rewrite Ep in D3; discriminate D3).
    assert (p_posts p <> []) as Hne by (rewrite Ep; discriminate). clear Ep b0 r0.
    destruct (flush_f_spec s items fin p f ft (p_posts p) p' f' ft' e F Hf H1 (or_intror H2) eq_refl Hne H)
      as (items' & fin' & A1 & A2 & A3 & A4 & A5).
    exists items', fin'. split; [exact A1|]. split; [exact A2|]. split; [exact A3|].
    split. { unfold grows. rewrite D3 in A4. lia. }
    destruct e as [w|].
    + assert (w <> FLink -> ft <> None /\ ft' = None /\ broken 524 s items' p') as K.
      { intros Hw. destruct w; [congruence| |];
          (destruct A5 as (B1 & B2 & B3 & B4 & B5 & B6 & B7 & B8); split; [exact B1|]; split; [exact B2|];
           split; [exact B3|]; split; [exact B4|]; split; [unfold ranges in *; rewrite B6, B7; exact RR|];
           split; [rewrite B8, app_length, D3; unfold ff8; rewrite link_bytes_length; destruct HB'; [lia|congruence]|];
           split; [exists pend, []; rewrite B8, D3, app_nil_r; auto|];
           exists dss; rewrite B5; auto). }
      destruct w; [|apply K; discriminate|apply K; discriminate].
      destruct A5 as (B1 & B2 & -> & ->). split; [exact B1|]. split; [exact B2|].
      repeat split; auto. exists dss, pend. repeat split; auto.
    + destruct A5 as (-> & B2 & B3 & B4). split; [exact B4|].
      unfold right. cbn [p_link p_head p_current p_total p_posts]. repeat split; auto.
      exists (dss ++ [pend]), []. split; [rewrite map_app, B2, D1, D3; reflexivity|].
      split. { apply Forall_app. split; [exact D2|]. constructor; [|constructor]. split; [exact Hpe|]. split; [exact D4|lia]. }
      split; [reflexivity|]. split; [constructor|]. split; [cbn; lia|].
      rewrite concat_app. cbn [concat]. rewrite !app_nil_r. auto.
Qed.

Lemma flush_none p f p' f' ft' e : flush_to_f p f None = (p', f', ft', e) -> ft' = None /\ e = None.
Proof.
  intros H. unfold flush_to_f, append_f, write_f in H. destruct (p_posts p); [inv H; auto|].
  destruct (negb _); cbn [negb] in H; inv H; auto.
Qed.

Lemma bad_flush s items fin p f p' f' ft' e :
  fin8 fin -> f = irender fin 0 items -> broken 529 s items p \/ dead 516 s items p ->
  flush_to_f p f None = (p', f', ft', e) ->
  ft' = None /\ e = None /\
  exists items' fin', fin8 fin' /\ f' = irender fin' 0 items' /\ ext s items fin items' fin' /\ grows f f' /\ dead 0 s items' p'.
Proof.
  intros F Hf R H. destruct (flush_none _ _ _ _ _ _ H) as [-> ->]. split; [reflexivity|]. split; [reflexivity|].
  assert (R' : p_link p = ilink s 0 items /\ (ilink s 0 items = (-1)%Z \/ p_head p = inext s 0 items) /\ ranges p /\
    (length (p_posts p) <= 529)%nat).
  { destruct R as [(H1 & H2 & H3 & H4 & _)|(H1 & H2 & H3 & H4 & _)]; repeat split; auto; try apply H3; lia. }
  destruct R' as (H1 & H2 & H3 & H4).
  destruct (p_posts p) as [|b0 r0] eqn:Ep.
  - unfold flush_to_f in H. rewrite Ep in H. inv H. exists items, fin.
    split; [exact F|]. split; [reflexivity|]. split; [apply ext_refl|]. split; [unfold grows; lia|].
    destruct R as [R|R].
    + exfalso. destruct R as (_ & _ & _ & _ & (pend & tail & E & _ & _) & _). rewrite Ep in E.
      destruct (payload pend); discriminate E.
    + destruct R as (R1 & R2 & R3 & R4 & R5). repeat split; auto; try apply R3. rewrite Ep. cbn. lia.
  - rewrite <- Ep in *. assert (p_posts p <> []) as Hne by (rewrite Ep; discriminate). clear Ep b0 r0.
    destruct (flush_f_spec s items fin p f None (p_posts p) p' f' None None F Hf H1 H2 eq_refl Hne H)
      as (items' & fin' & A1 & A2 & A3 & A4 & -> & B2 & B3 & B4).
    exists items', fin'. split; [exact A1|]. split; [exact A2|]. split; [exact A3|]. split; [unfold grows; lia|].
    split; [reflexivity|]. split; [reflexivity|]. split; [exact H3|]. split; [cbn; lia|]. rewrite B2.
    destruct R as [R|R].
    + destruct R as (_ & _ & _ & _ & Bp & dss & D1 & D2). exists dss, (p_posts p), []. rewrite D1. auto.
    + destruct R as (_ & _ & _ & _ & dss & b & rest & D1 & D2 & D3). exists dss, b, (rest ++ [p_posts p]).
      rewrite D1, <- app_assoc. auto.
Qed.

(** AddPost *)
Lemma right_add B s items fin p ids v f ft p' f' ft' e :
  (511 <= B <= 516)%nat -> (B <= 511)%nat \/ ft = None ->
  fin8 fin -> f = irender fin 0 items -> right B s items fin p ids -> d32 v -> nlen ids < 4294967296 ->
  add_post_f p v f ft = (p', f', ft', e) ->
  exists items' fin', fin8 fin' /\ f' = irender fin' 0 items' /\ ext s items fin items' fin' /\ grows f f' /\
    match e with
    | None => unfailed ft ft' /\ right B s items' fin' p' (snoc_new ids v)
    | Some FLink => ft <> None /\ ft' = None /\ right 516 s items' fin' p' (snoc_new ids v)
    | Some _ => ft <> None /\ ft' = None /\ broken 524 s items' p'
    end.
Proof.
  intros HB HB' F Hf R Hv Hn H. pose proof R as (H1 & H2 & H3 & H4 & H5 & dss & pend & D1 & D2 & D3 & D4 & D5 & D6 & D7).
  unfold add_post_f in H.
  assert (u32 (nlen ids) = nlen ids) as Eu by (unfold u32; lia).
  destruct ((p_current p =? v) && negb (p_total p =? 0)) eqn:E.
  - inv H. exists items, fin. split; [exact F|]. split; [reflexivity|]. split; [apply ext_refl|]. split; [unfold grows; lia|].
    split; [unfold unfailed; auto|].
    apply andb_prop in E. destruct E as [E1 E2].
    assert (sums 0 (concat dss ++ pend) <> []) by (intros Z; rewrite Z in H4; rewrite H4 in E2; discriminate E2).
    assert (snoc_new (sums 0 (concat dss ++ pend)) v = sums 0 (concat dss ++ pend)) as ->; [|exact R].
    unfold snoc_new. destruct (sums 0 (concat dss ++ pend)); [congruence|]. rewrite <- H3, E1. reflexivity.
  - assert (snoc_new ids v = ids ++ [v]) as Es.
    { unfold snoc_new. destruct ids as [|i0 ids0]; [reflexivity|].
      rewrite <- H3. destruct (p_current p =? v); [|reflexivity].
      cbn [andb] in E. rewrite H4, Eu in E. unfold nlen in E. cbn [length] in E.
      destruct (N.eqb_spec (N.of_nat (S (length ids0))) 0); [lia|discriminate]. }
    rewrite Es. set (delta := sub32 v (p_current p)) in *.
    set (p1 := MkPoster _ _ _ _ _) in H.
    assert (right (B + 5) s items fin p1 (ids ++ [v])) as R1.
    { unfold right, p1. cbn [p_link p_head p_current p_total p_posts].
      rewrite last_snoc, H4, Eu. split; [exact H1|]. split; [exact H2|]. split; [reflexivity|].
      split. { unfold nlen. rewrite app_length. cbn [length]. f_equal. lia. }
      split. { apply Forall_app. auto. }
      exists dss, (pend ++ [delta]). rewrite payload_app.
      assert (payload [delta] = put_uvarint delta) as -> by (unfold payload; cbn [map concat]; apply app_nil_r).
      rewrite D3, app_length. pose proof (put_uvarint_len32 delta (sub32_d32 v (p_current p))).
      split; [exact D1|]. split; [exact D2|]. split; [reflexivity|].
      split. { apply Forall_app. split; [exact D4|]. constructor; [apply sub32_d32|constructor]. }
      split; [lia|]. split; [|right; destruct pend; discriminate].
      rewrite app_assoc, sums_last_snoc, D6. do 2 f_equal. unfold delta. rewrite H3.
      apply add32_sub32; [apply last_d32|]; assumption. }
    destruct (Nat.leb_spec flush_rate (length (p_posts p1))) as [L|L].
    + destruct (right_flush (B + 5) s items fin p1 (ids ++ [v]) f ft p' f' ft' e ltac:(lia) ltac:(destruct HB'; [left; lia|auto]) F Hf R1 H)
        as (items' & fin' & A1 & A2 & A3 & A4 & A5).
      exists items', fin'. split; [exact A1|]. split; [exact A2|]. split; [exact A3|]. split; [exact A4|].
      destruct e as [[]|]; auto.
      * destruct A5 as (B1 & B2 & B3). split; [exact B1|]. split; [exact B2|].
        destruct HB' as [Z|Z]; [|congruence]. apply (right_le (B + 5)); [lia|exact B3].
      * destruct A5 as (B1 & B3). split; [exact B1|]. apply (right_le 0); [lia|exact B3].
    + inv H. exists items, fin. split; [exact F|]. split; [reflexivity|]. split; [apply ext_refl|]. split; [unfold grows; lia|].
      split; [unfold unfailed; auto|]. destruct R1 as (K1 & K2 & K3 & K4 & K5 & dss' & pend' & K6 & K7 & K8 & K9 & K10 & K11 & K12).
      repeat split; auto. exists dss', pend'. repeat split; auto. unfold flush_rate in L.
      rewrite K8 in L. lia.
Qed.

Lemma bad_add s items fin p v f p' f' ft' e :
  fin8 fin -> f = irender fin 0 items -> broken 524 s items p \/ dead 511 s items p -> d32 v ->
  add_post_f p v f None = (p', f', ft', e) ->
  ft' = None /\ e = None /\
  exists items' fin', fin8 fin' /\ f' = irender fin' 0 items' /\ ext s items fin items' fin' /\ grows f f' /\
    (broken 524 s items' p' \/ dead 511 s items' p').
Proof.
  intros F Hf R Hv H. unfold add_post_f in H.
  destruct ((p_current p =? v) && negb (p_total p =? 0)) eqn:E.
  - inv H. split; [reflexivity|]. split; [reflexivity|]. exists items, fin.
    split; [exact F|]. split; [reflexivity|]. split; [apply ext_refl|]. split; [unfold grows; lia|exact R].
  - set (delta := sub32 v (p_current p)) in *. set (p1 := MkPoster _ _ _ _ _) in H.
    pose proof (put_uvarint_len32 delta (sub32_d32 v (p_current p))) as Ld.
    assert (ranges p1) as RR by (unfold ranges, p1; cbn [p_current p_total]; unfold d32, u32 in *; lia).
    assert (broken 529 s items p1 \/ dead 516 s items p1) as R1.
    { destruct R as [(H1 & H2 & H3 & H4 & (pend & tail & T1 & T2 & T3) & H6)|(H1 & H2 & H3 & H4 & H5)]; [left|right].
      - split; [exact H1|]. split; [exact H2|]. split; [exact RR|]. cbn [p1 p_posts]. rewrite app_length.
        split; [lia|]. split; [|exact H6]. exists pend, (tail ++ put_uvarint delta). rewrite T1, <- !app_assoc. auto.
      - split; [exact H1|]. split; [exact H2|]. split; [exact RR|]. cbn [p1 p_posts]. rewrite app_length.
        split; [lia|exact H5]. }
    destruct (Nat.leb_spec flush_rate (length (p_posts p1))) as [L|L].
    + destruct (bad_flush s items fin p1 f p' f' ft' e F Hf R1 H) as (-> & -> & items' & fin' & A1 & A2 & A3 & A4 & A5).
      split; [reflexivity|]. split; [reflexivity|]. exists items', fin'.
      split; [exact A1|]. split; [exact A2|]. split; [exact A3|]. split; [exact A4|]. right.
      destruct A5 as (K1 & K2 & K3 & K4 & K5). repeat split; auto; try apply K3. lia.
    + inv H. split; [reflexivity|]. split; [reflexivity|]. exists items, fin.
      split; [exact F|]. split; [reflexivity|]. split; [apply ext_refl|]. split; [unfold grows; lia|].
      unfold flush_rate in L. fold delta p1. fold p1 in R1.
      destruct R1 as [(K1 & K2 & K3 & K4 & K5 & K6)|(K1 & K2 & K3 & K4 & K5)]; [left|right]; (repeat split; auto; try apply K3; lia).
Qed.
