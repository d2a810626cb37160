(** A session one of whose writes fails. *)
From Verif Require Import Model.Base Model.Address Model.Varint Model.Post Model.Poster Model.Shard Model.Fault
  Spec.Postings Spec.Reading Spec.Failing Proof.Tactics Proof.VarintP Proof.PosterP Proof.ShardP Proof.KeepP
  Proof.FaultP Proof.FaultP2 Proof.FaultP3.
Local Open Scope N_scope.

(** * The shard *)
Definition slot_ok (who : option (nat * failed)) (s : nat) (items : list item) (fin : nat -> bytes) (p : poster) (ids : list N) : Prop :=
  match who with
  | None => right 511 s items fin p ids
  | Some (s0, w) =>
      if (s0 =? s)%nat then
        match w with
        | FLink => right 516 s items fin p ids
        | _ => broken 524 s items p \/ dead 511 s items p
        end
      else right 511 s items fin p ids
  end.
Definition finv (x : shard) (items : list item) (fin : nat -> bytes) (c : content) (who : option (nat * failed)) (ft : fault) : Prop :=
  length (x_ind x) = num_slots /\ x_file x = irender fin 0 items /\ fin8 fin /\ (who <> None -> ft = None) /\
  forall s p, nth_error (x_ind x) s = Some p -> slot_ok who s items fin p (c s).
Definition who_list (who : option (nat * failed)) : list (nat * failed) := match who with None => [] | Some w => [w] end.

Lemma dead_le B B' s items p : (B <= B')%nat -> dead B s items p -> dead B' s items p.
Proof. intros L (H1 & H2 & H3 & H4 & H5). repeat split; auto; try apply H3. lia. Qed.

Lemma slot_ext who s items fin items' fin' s' p ids : ext s items fin items' fin' -> s' <> s ->
  slot_ok who s' items fin p ids -> slot_ok who s' items' fin' p ids.
Proof.
  intros E Hs. unfold slot_ok. destruct who as [[s0 w]|]; [|apply (right_ext _ _ _ _ _ _ _ _ _ E Hs)].
  destruct (s0 =? s')%nat; [|apply (right_ext _ _ _ _ _ _ _ _ _ E Hs)].
  destruct w; [apply (right_ext _ _ _ _ _ _ _ _ _ E Hs)| |];
    (intros [K|K]; [left; apply (broken_ext _ _ _ _ _ _ _ _ E Hs K)|right; apply (dead_ext _ _ _ _ _ _ _ _ E Hs K)]).
Qed.

(** What a step of slot [s] makes of the shard. *)
Lemma finv_upd x items fin c who ft s p items' fin' c' who' ft' f' :
  finv x items fin c who ft -> (s < num_slots)%nat -> ext s items fin items' fin' -> fin8 fin' ->
  f' = irender fin' 0 items' -> (who' <> None -> ft' = None) ->
  (forall s' p', s' <> s -> slot_ok who s' items' fin' p' (c s') -> slot_ok who' s' items' fin' p' (c' s')) ->
  slot_ok who' s items' fin' p (c' s) ->
  finv (MkShard (upd s p (x_ind x)) f') items' fin' c' who' ft'.
Proof.
  intros (I1 & I2 & I3 & I4 & I5) Hs E F Hf Hw Ho Hp. unfold finv. cbn [x_ind x_file]. rewrite upd_length.
  split; [exact I1|]. split; [exact Hf|]. split; [exact F|]. split; [exact Hw|].
  intros s' p' H. rewrite nth_error_upd in H. destruct (Nat.eqb_spec s s') as [<-|Hne].
  - destruct (nth_error (x_ind x) s); inv H. exact Hp.
  - apply Ho; [congruence|]. apply (slot_ext who s items fin); auto.
Qed.

Lemma slot_none_other w s s' items fin p ids : s' <> s -> slot_ok None s' items fin p ids -> slot_ok (Some (s, w)) s' items fin p ids.
Proof. intros Hs H. unfold slot_ok. destruct (Nat.eqb_spec s s'); [congruence|exact H]. Qed.

Lemma who_none (who : option (nat * failed)) (ft : fault) : (who <> None -> ft = None) -> ft <> None -> who = None.
Proof. destruct who; intros H H'; [|reflexivity]. exfalso. apply H', H. discriminate. Qed.

Lemma add_step who s items fin p ids v f ft p' f' ft' e :
  (who <> None -> ft = None) -> fin8 fin -> f = irender fin 0 items -> slot_ok who s items fin p ids ->
  d32 v -> nlen ids < 4294967296 -> add_post_f p v f ft = (p', f', ft', e) ->
  exists items' fin' who', fin8 fin' /\ f' = irender fin' 0 items' /\ ext s items fin items' fin' /\ grows f f' /\
    (who' <> None -> ft' = None) /\
    who_list who' = who_list who ++ match e with None => [] | Some w => [(s, w)] end /\
    slot_ok who' s items' fin' p' (snoc_new ids v).
Proof.
  intros Hw F Hf Hs Hv Hn H.
  assert (forall B, (511 <= B <= 516)%nat -> (B <= 511)%nat \/ ft = None -> right B s items fin p ids ->
    (B = 511%nat -> who = None \/ exists s0 w, who = Some (s0, w) /\ s0 <> s) ->
    (B = 516%nat -> who = Some (s, FLink)) -> B = 511%nat \/ B = 516%nat ->
    exists items' fin' who', fin8 fin' /\ f' = irender fin' 0 items' /\ ext s items fin items' fin' /\ grows f f' /\
    (who' <> None -> ft' = None) /\
    who_list who' = who_list who ++ match e with None => [] | Some w => [(s, w)] end /\
    slot_ok who' s items' fin' p' (snoc_new ids v)) as K.
  { intros B HB HB' R K1 K2 K3.
    destruct (right_add B s items fin p ids v f ft p' f' ft' e HB HB' F Hf R Hv Hn H) as (items' & fin' & A1 & A2 & A3 & A4 & A5).
    destruct e as [w|].
    - exists items', fin', (Some (s, w)). split; [exact A1|]. split; [exact A2|]. split; [exact A3|]. split; [exact A4|].
      assert (ft <> None) as Nf by (destruct w; apply A5). rewrite (who_none who ft Hw Nf) in *.
      split; [intros _; destruct w; apply A5|]. split; [reflexivity|]. unfold slot_ok. rewrite Nat.eqb_refl.
      destruct w; destruct A5 as (_ & _ & A5); auto.
    - exists items', fin', who. split; [exact A1|]. split; [exact A2|]. split; [exact A3|]. split; [exact A4|].
      destruct A5 as [U A5]. split; [intros Z; apply U, Hw, Z|]. split; [rewrite app_nil_r; reflexivity|].
      unfold slot_ok. destruct K3 as [->| ->].
      + destruct (K1 eq_refl) as [->|(s0 & w & -> & Ne)]; [exact A5|]. destruct (Nat.eqb_spec s0 s); [congruence|exact A5].
      + rewrite (K2 eq_refl), Nat.eqb_refl. exact A5. }
  unfold slot_ok in Hs. destruct who as [[s0 w]|].
  - pose proof (Hw ltac:(discriminate)) as Z. destruct (Nat.eqb_spec s0 s) as [->|Ne].
    + assert (w <> FLink -> broken 524 s items p \/ dead 511 s items p ->
        exists items' fin' who', fin8 fin' /\ f' = irender fin' 0 items' /\ ext s items fin items' fin' /\ grows f f' /\
        (who' <> None -> ft' = None) /\
        who_list who' = who_list (Some (s, w)) ++ match e with None => [] | Some w => [(s, w)] end /\
        slot_ok who' s items' fin' p' (snoc_new ids v)) as KB.
      { intros Hwl Hb. rewrite Z in H.
        destruct (bad_add s items fin p v f p' f' ft' e F Hf Hb Hv H) as (-> & -> & items' & fin' & A1 & A2 & A3 & A4 & A5).
        exists items', fin', (Some (s, w)). split; [exact A1|]. split; [exact A2|]. split; [exact A3|]. split; [exact A4|].
        split; [auto|]. split; [reflexivity|]. unfold slot_ok. rewrite Nat.eqb_refl. destruct w; [congruence|exact A5|exact A5]. }
      destruct w.
      * apply (K 516%nat); auto; lia.
      * apply KB; [discriminate|exact Hs].
      * apply KB; [discriminate|exact Hs].
    + apply (K 511%nat); auto; [lia| |lia]. intros _. right. eauto.
  - apply (K 511%nat); auto; lia.
Qed.

Lemma serve_post_f_inv x items fin c who ft p x' ft' l :
  finv x items fin c who ft -> nlen (c (slot_of p)) < 4294967296 -> serve_post_f x p ft = (x', ft', l) ->
  exists items' fin' who', finv x' items' fin' (add_to c p) who' ft' /\ who_list who' = who_list who ++ l /\
    grows (x_file x) (x_file x').
Proof.
  intros I Hn H. pose proof I as (I1 & I2 & I3 & I4 & I5).
  unfold serve_post_f, serve_slot in H. rewrite land_ffff in H. fold (slot_of p) in H.
  pose proof (slot_of_lt p) as Hs.
  destruct (nth_error (x_ind x) (slot_of p)) as [po|] eqn:E.
  2: apply nth_error_None in E; lia.
  destruct (add_post_f po (post_docid p) (x_file x) ft) as [[[po' f'] ft1] e] eqn:Ea.
  destruct (add_step who _ items fin po _ (post_docid p) (x_file x) ft po' f' ft1 e I4 I3 I2 (I5 _ _ E) (post_docid_d32 p) Hn Ea)
    as (items' & fin' & who' & A1 & A2 & A3 & A4 & A5 & A6 & A7).
  inv H. exists items', fin', who'. split; [|split; [exact A6|exact A4]].
  apply (finv_upd x items fin c who ft); auto.
  - intros s' p' Hne. unfold add_to. destruct (Nat.eqb_spec s' (slot_of p)); [congruence|].
    destruct e as [w|].
    + destruct who as [[s0 w0]|].
      * cbn [who_list app] in A6. destruct who' as [?|]; discriminate A6.
      * cbn [who_list app] in A6. destruct who' as [[s1 w1]|]; cbn [who_list] in A6; [|discriminate A6]. injection A6 as -> ->.
        apply slot_none_other. congruence.
    + rewrite app_nil_r in A6. destruct who, who'; cbn [who_list] in A6; try discriminate A6; [injection A6 as ->|]; auto.
  - unfold add_to. rewrite Nat.eqb_refl. exact A7.
Qed.

Lemma finv_ext x items fin c c' who ft : (forall s, c s = c' s) -> finv x items fin c who ft -> finv x items fin c' who ft.
Proof.
  intros E (I1 & I2 & I3 & I4 & I5). split; [exact I1|]. split; [exact I2|]. split; [exact I3|]. split; [exact I4|].
  intros s p H. rewrite <- E. auto.
Qed.

Lemma serve_batch_f_inv ps : forall x items fin hist who ft x' ft' l,
  finv x items fin (content_of hist) who ft -> bounded (hist ++ ps) -> serve_batch_f x ps ft = (x', ft', l) ->
  exists items' fin' who', finv x' items' fin' (content_of (hist ++ ps)) who' ft' /\ who_list who' = who_list who ++ l /\
    (length (x_file x') <= length (x_file x) + 547 * length ps)%nat.
Proof.
  induction ps as [|p ps IH]; intros x items fin hist who ft x' ft' l I B H; cbn [serve_batch_f] in H.
  - inv H. rewrite !app_nil_r. exists items, fin, who. split; [exact I|]. split; [reflexivity|lia].
  - destruct (serve_post_f x p ft) as [[x1 ft1] l1] eqn:E1. destruct (serve_batch_f x1 ps ft1) as [[x2 ft2] l2] eqn:E2.
    inv H. destruct (serve_post_f_inv _ _ _ _ _ _ _ _ _ _ I (bounded_app_l hist (p :: ps) B _) E1) as (it1 & fin1 & who1 & I1 & L1 & G1).
    eapply finv_ext in I1; [|intros s; apply add_to_content].
    replace (hist ++ p :: ps) with ((hist ++ [p]) ++ ps) in * by (rewrite <- app_assoc; reflexivity).
    destruct (IH _ _ _ _ _ _ _ _ _ I1 B E2) as (it2 & fin2 & who2 & I2 & L2 & G2).
    exists it2, fin2, who2. split; [exact I2|]. split; [rewrite L2, L1, app_assoc; reflexivity|].
    unfold grows in G1. cbn [length]. lia.
Qed.

(** * Closing *)
Lemma flush_step who s items fin p ids f ft p' f' ft' :
  (who <> None -> ft = None) -> fin8 fin -> f = irender fin 0 items -> slot_ok who s items fin p ids ->
  flush_to_f p f ft = (p', f', ft', None) ->
  exists items' fin', fin8 fin' /\ f' = irender fin' 0 items' /\ ext s items fin items' fin' /\ grows f f' /\
    (who <> None -> ft' = None) /\ slot_ok who s items' fin' p' ids /\ p_posts p' = [].
Proof.
  intros Hw F Hf Hs H.
  assert (forall B, (B <= 521)%nat -> (B <= 516)%nat \/ ft = None -> right B s items fin p ids ->
    exists items' fin', fin8 fin' /\ f' = irender fin' 0 items' /\ ext s items fin items' fin' /\ grows f f' /\
      (who <> None -> ft' = None) /\ right 0 s items' fin' p' ids /\ p_posts p' = []) as K.
  { intros B HB HB' R. destruct (right_flush B s items fin p ids f ft p' f' ft' None HB HB' F Hf R H)
      as (items' & fin' & A1 & A2 & A3 & A4 & U & A5).
    exists items', fin'. split; [exact A1|]. split; [exact A2|]. split; [exact A3|]. split; [exact A4|].
    split; [intros Z; apply U, Hw, Z|]. split; [exact A5|].
    destruct A5 as (_ & _ & _ & _ & _ & dss & pend & _ & _ & E & _ & L & _). rewrite E. destruct (payload pend); [reflexivity|cbn in L; lia]. }
  unfold slot_ok in *. destruct who as [[s0 w]|].
  - pose proof (Hw ltac:(discriminate)) as Z. destruct (Nat.eqb_spec s0 s) as [->|Ne].
    + assert (broken 524 s items p \/ dead 511 s items p ->
        exists items' fin', fin8 fin' /\ f' = irender fin' 0 items' /\ ext s items fin items' fin' /\ grows f f' /\
        ft' = None /\ (broken 524 s items' p' \/ dead 511 s items' p') /\ p_posts p' = []) as KB.
      { intros Hb. rewrite Z in H.
        assert (broken 529 s items p \/ dead 516 s items p) as Hb'.
        { destruct Hb as [(B1 & B2 & B3 & B4 & B5)|D]; [left|right; apply (dead_le 511); [lia|exact D]].
          repeat split; auto; try apply B3; lia || apply B5. }
        destruct (bad_flush s items fin p f p' f' ft' None F Hf Hb' H) as (-> & _ & items' & fin' & A1 & A2 & A3 & A4 & A5).
        exists items', fin'. split; [exact A1|]. split; [exact A2|]. split; [exact A3|]. split; [exact A4|].
        split; [reflexivity|]. split; [right; apply (dead_le 0); [lia|exact A5]|].
        destruct A5 as (_ & _ & _ & L & _). destruct (p_posts p'); [reflexivity|cbn in L; lia]. }
      destruct w.
      * destruct (K 516%nat ltac:(lia) (or_intror Z) Hs) as (items' & fin' & A1 & A2 & A3 & A4 & A5 & A6 & A7).
        exists items', fin'. repeat (split; [assumption|]). split; [apply (right_le 0); [lia|exact A6]|exact A7].
      * destruct (KB Hs) as (items' & fin' & A1 & A2 & A3 & A4 & A5 & A6 & A7).
        exists items', fin'. do 4 (split; [assumption|]). auto.
      * destruct (KB Hs) as (items' & fin' & A1 & A2 & A3 & A4 & A5 & A6 & A7).
        exists items', fin'. do 4 (split; [assumption|]). auto.
    + destruct (K 511%nat ltac:(lia) (or_intror Z) Hs) as (items' & fin' & A1 & A2 & A3 & A4 & A5 & A6 & A7).
      exists items', fin'. repeat (split; [assumption|]). split; [apply (right_le 0); [lia|exact A6]|exact A7].
  - destruct (K 511%nat ltac:(lia) ltac:(left; lia) Hs) as (items' & fin' & A1 & A2 & A3 & A4 & A5 & A6 & A7).
    exists items', fin'. repeat (split; [assumption|]). split; [apply (right_le 0); [lia|exact A6]|exact A7].
Qed.

Lemma flush_ind_f_inv n : forall i x items fin c who ft x' ft',
  finv x items fin c who ft -> (i + n <= num_slots)%nat ->
  (forall s p, (s < i)%nat -> nth_error (x_ind x) s = Some p -> p_posts p = []) ->
  flush_ind_f n i x ft = (x', ft', None) ->
  exists items' fin', finv x' items' fin' c who ft' /\
    (forall s p, (s < i + n)%nat -> nth_error (x_ind x') s = Some p -> p_posts p = []) /\
    (length (x_file x') <= length (x_file x) + n * 547)%nat.
Proof.
  induction n as [|n IH]; intros i x items fin c who ft x' ft' I Hi Hd H; cbn [flush_ind_f] in H.
  - inv H. exists items, fin. rewrite Nat.add_0_r. split; [exact I|]. split; [exact Hd|lia].
  - pose proof I as (I1 & I2 & I3 & I4 & I5).
    destruct (nth_error (x_ind x) i) as [po|] eqn:E.
    2: apply nth_error_None in E; lia.
    destruct (flush_to_f po (x_file x) ft) as [[[po' f1] ft1] e] eqn:Ef. destruct e; [discriminate H|].
    destruct (flush_step who i items fin po _ (x_file x) ft po' f1 ft1 I4 I3 I2 (I5 _ _ E) Ef)
      as (items' & fin' & A1 & A2 & A3 & A4 & A5 & A6 & A7).
    set (x1 := MkShard (upd i po' (x_ind x)) f1) in H.
    assert (finv x1 items' fin' c who ft1) as Ix1.
    { apply (finv_upd x items fin c who ft); auto. lia. }
    destruct (IH (S i) x1 items' fin' c who ft1 x' ft' Ix1 ltac:(lia)) as (it2 & fin2 & J1 & J2 & J3); [|exact H|].
    { intros s p Hs Hn. unfold x1 in Hn. cbn [x_ind] in Hn. rewrite nth_error_upd in Hn.
      destruct (Nat.eqb_spec i s) as [<-|Hne].
      - rewrite E in Hn. inv Hn. exact A7.
      - apply (Hd s); [lia | exact Hn]. }
    exists it2, fin2. split; [exact J1|]. split; [intros s p Hs; apply J2; lia|].
    unfold grows, x1 in *. cbn [x_file] in J3. lia.
Qed.

Lemma flush_ind_f_err n : forall i x ft x' ft' w, flush_ind_f n i x ft = (x', ft', Some w) -> ft <> None.
Proof.
  induction n as [|n IH]; intros i x ft x' ft' w H; cbn [flush_ind_f] in H; [discriminate H|].
  destruct (nth_error (x_ind x) i) as [po|]; [|discriminate H].
  destruct (flush_to_f po (x_file x) ft) as [[[po' f1] ft1] e] eqn:Ef. intros ->.
  destruct (flush_none _ _ _ _ _ _ Ef) as [-> ->]. apply IH in H. congruence.
Qed.

(** * Start *)
Definition item_of (e : entry) : item := Chunk (fst e) (payload (snd e)).
Lemma item_len_of e : item_len (item_of e) = chunk_len (snd e).
Proof. reflexivity. Qed.
Lemma inext_items s log : forall base, inext s base (map item_of log) = next_off s base log.
Proof.
  induction log as [|[s' ds] r IH]; intros base; cbn [map inext next_off]; [reflexivity|].
  rewrite item_len_of, IH. reflexivity.
Qed.
Lemma ilink_items s log : forall base, ilink s base (map item_of log) = link_pos s base log.
Proof.
  induction log as [|[s' ds] r IH]; intros base; cbn [map ilink link_pos]; [reflexivity|].
  rewrite item_len_of, IH. reflexivity.
Qed.
Lemma irender_items log : forall base, irender (fun _ => ff8) base (map item_of log) = render base log.
Proof.
  induction log as [|[s' ds] r IH]; intros base; [reflexivity|].
  change (map item_of ((s', ds) :: r)) with (Chunk s' (payload ds) :: map item_of r). cbn [irender render].
  change (item_len (Chunk s' (payload ds))) with (chunk_len ds). rewrite IH, inext_items.
  destruct (Z.eqb_spec (next_off s' (base + chunk_len ds) r) (-1)) as [E|E]; [rewrite E|]; reflexivity.
Qed.
Lemma ichunks_items s log : ichunks s (map item_of log) = map payload (chunks s log).
Proof.
  unfold chunks. induction log as [|[s' ds] r IH]; [reflexivity|]. cbn [map item_of fst snd ichunks filter].
  destruct (s' =? s)%nat; cbn [map snd]; rewrite IH; reflexivity.
Qed.

Lemma to_finv x log c ft : shard_inv x log c -> finv x (map item_of log) (fun _ => ff8) c None ft.
Proof.
  intros (I1 & I2 & I3 & I4 & I5). split; [exact I1|]. split; [rewrite irender_items; exact I2|].
  split; [intros s; apply link_bytes_length|]. split; [congruence|].
  intros s p H. destruct (I5 s p H) as (H1 & H2 & H3 & H4 & H5 & pend & H6 & H7 & H8 & H9).
  split; [rewrite ilink_items; exact H1|]. split; [rewrite inext_items; exact H2|].
  split; [exact H3|]. split; [exact H4|]. split; [exact H5|].
  exists (chunks s log), pend. split; [apply ichunks_items|]. split.
  - unfold chunks. apply Forall_forall. intros ds Hd. apply in_map_iff in Hd. destruct Hd as ([s' ds'] & <- & Hd).
    apply filter_In in Hd. destruct Hd as [Hd _]. unfold log_ok in I3. rewrite Forall_forall in I3.
    destruct (I3 _ Hd) as (K1 & K2 & K3). split; [exact K1|]. split; [exact K2|]. cbn [snd] in *. lia.
  - split; [exact H6|]. split; [exact H7|]. split; [lia|]. auto.
Qed.

Lemma shard_file_small x log c : shard_inv x log c ->
  (forall s, nlen (c s) < 4294967296) -> (Z.of_nat (length (x_file x)) <= 23 * 281474976710656)%Z.
Proof.
  intros (I1 & I2 & I3 & I4 & I5) H. rewrite I2, render_length.
  pose proof (log_size_count log I3) as L.
  pose proof (log_count_sum num_slots log I4) as C.
  assert (sum_to num_slots (fun s => nlen (concat (chunks s log))) <= N.of_nat num_slots * 4294967296) as B.
  { apply sum_to_bound. intros s Hs.
    destruct (nth_error (x_ind x) s) as [p|] eqn:E.
    - pose proof (poster_inv_count _ _ _ _ (I5 s p E)). specialize (H s). lia.
    - apply nth_error_None in E. lia. }
  rewrite <- C, num_slots_val in B. lia.
Qed.

Lemma starts_inv x hist : starts x hist -> bounded hist -> exists log, shard_inv x log (content_of hist).
Proof.
  intros S B. destruct S as [|first ss iix pos x H1 H2].
  - exists []. exact shard_create_inv.
  - destruct (shard_sessions_spec first ss B) as (files & K1 & y & log & K2 & K3 & K4 & K5).
    rewrite H1 in K1. injection K1 as <-. injection K5 as -> ->.
    rewrite (shard_append_spec y log _ K2 K3 K4) in H2. injection H2 as <-. exists log. exact K2.
Qed.

(** * Reading *)
Definition hit (who : option (nat * failed)) (s : nat) : bool :=
  match who with Some (s0, FLink) => false | Some (s0, _) => (s0 =? s)%nat | None => false end.

Lemma slot_right who s items fin p ids : slot_ok who s items fin p ids -> hit who s = false -> right 516 s items fin p ids.
Proof.
  unfold slot_ok, hit. destruct who as [[s0 w]|]; [|intros H _; apply (right_le 511); [lia|exact H]].
  destruct (s0 =? s)%nat eqn:E; [|intros H _; apply (right_le 511); [lia|exact H]].
  destruct w; [auto|discriminate|discriminate].
Qed.
Lemma slot_dead who s items fin p ids : slot_ok who s items fin p ids -> hit who s = true -> p_posts p = [] -> dead 511 s items p.
Proof.
  unfold slot_ok, hit. destruct who as [[s0 w]|]; [|discriminate].
  destruct w; [discriminate| |]; intros H E Hp; rewrite E in H; (destruct H as [H|H]; [|exact H]);
    exfalso; destruct H as (_ & _ & _ & _ & (pend & tail & Eb & _) & _); rewrite Hp in Eb; destruct (payload pend); discriminate Eb.
Qed.

Lemma finv_read sorted x items fin c who ft : finv x items fin c who ft -> flushed x ->
  (Z.of_nat (length (x_file x)) < 9223372036854775808)%Z -> (forall s, nlen (c s) < 4294967296) ->
  forall s, (s < num_slots)%nat ->
    if hit who s then unreadable sorted (iix_bytes (x_ind x), x_file x) s
    else lists sorted (iix_bytes (x_ind x), x_file x) s (c s).
Proof.
  intros (I1 & I2 & I3 & I4 & I5) Hf Hsz B s Hs.
  assert (Z.of_nat (isize items) < 9223372036854775808)%Z as Hi by (rewrite I2, irender_length in Hsz; assumption).
  assert (forall s p, nth_error (x_ind x) s = Some p -> p_posts p = []) as Hp.
  { intros s' p H. apply nth_error_In in H. unfold flushed in Hf. rewrite Forall_forall in Hf. auto. }
  assert (Forall table_ok (x_ind x)) as T.
  { apply Forall_forall. intros p H. apply In_nth_error in H. destruct H as [s' H].
    pose proof (I5 s' p H) as Sl. specialize (Hp s' p H).
    assert (p_head p = inext s' 0 items /\ ranges p) as [Hh R].
    { destruct (hit who s') eqn:E.
      - pose proof (slot_dead _ _ _ _ _ _ Sl E Hp) as D. split; apply D.
      - pose proof (slot_right _ _ _ _ _ _ Sl E) as R. split; [apply R|]. apply (right_ranges _ _ _ _ _ _ R). }
    destruct R as [R1 R2]. unfold table_ok. rewrite Hh. destruct (inext_range s' items 0) as [->|K]; lia. }
  pose proof (read_table_spec (x_ind x) [] T) as R. rewrite app_nil_r, I1 in R.
  destruct (nth_error (x_ind x) s) as [p|] eqn:E; [|apply nth_error_None in E; lia].
  pose proof (I5 s p E) as Sl. specialize (Hp s p E).
  destruct (hit who s) eqn:Eh.
  - unfold unreadable, shard_open. cbn [fst snd]. rewrite R. cbn [bind]. eexists. split; [reflexivity|].
    unfold read_state_for, read_state_for_blot_at. cbn [rs_posts si_heads si_file].
    rewrite map_map. cbn [fst]. rewrite (nth_map_error _ _ _ _ _ E).
    pose proof (slot_dead _ _ _ _ _ _ Sl Eh Hp) as (_ & D2 & _ & _ & dss & b & rest & D5 & D6 & D7).
    rewrite D2, I2. unfold new_posts. intros ids.
    exact (dead_unreadable fin items s I3 Hi items [] 0%nat 0 [] dss b rest eq_refl eq_refl D5 D6 D7 ids).
  - unfold lists, shard_open. cbn [fst snd]. rewrite R. cbn [bind]. eexists. split; [reflexivity|].
    unfold read_state_for, read_state_for_blot_at. cbn [rs_posts rs_total si_heads si_counts si_file].
    rewrite !map_map. cbn [fst snd].
    rewrite (nth_map_error _ _ _ _ _ E), (nth_map_error _ _ _ _ _ E).
    pose proof (slot_right _ _ _ _ _ _ Sl Eh) as (D1 & D2 & D3 & D4 & D5 & dss & pend & D6 & D7 & D8 & D9 & D10 & D11 & D12).
    rewrite Hp in D8. symmetry in D8. apply payload_nil in D8. subst pend. rewrite app_nil_r in D11.
    destruct D12 as [D12|D12]; [|congruence]. split.
    + rewrite D2, I2, <- D11. unfold new_posts.
      exact (ireads fin items s I3 Hi D12 items [] 0%nat 0 [] dss eq_refl eq_refl D6 D7).
    + rewrite D4. unfold u32. apply N.mod_small, B.
Qed.

(** * The whole session *)
Lemma serve_log_slots ps : forall x ft x' ft' l, serve_batch_f x ps ft = (x', ft', l) ->
  Forall (fun e => (fst e < num_slots)%nat) l.
Proof.
  induction ps as [|p ps IH]; intros x ft x' ft' l H; cbn [serve_batch_f] in H; [inv H; constructor|].
  destruct (serve_post_f x p ft) as [[y fy] ly] eqn:Ep. destruct (serve_batch_f y ps fy) as [[z fz] lz] eqn:Eb.
  inv H. apply Forall_app. split; [|eapply IH; exact Eb].
  unfold serve_post_f, serve_slot in Ep. rewrite land_ffff in Ep. fold (slot_of p) in Ep.
  destruct (nth_error _ _) as [po|]; [|inv Ep; constructor].
  destruct (add_post_f po (post_docid p) (x_file x) ft) as [[[po' f'] ft1] e]. inv Ep.
  destruct e; constructor; [apply slot_of_lt|constructor].
Qed.

Theorem session_f_spec sorted x hist ps ft r log :
  starts x hist -> bounded (hist ++ ps) -> (Z.of_nat (length ps) < 1125899906842624)%Z ->
  session_f x ps ft = (r, log) ->
  match r with
  | Ok files =>
      match log with
      | [] => forall s, (s < num_slots)%nat -> lists sorted files s (squeeze (posted s (hist ++ ps)))
      | [(s0, FLink)] => forall s, (s < num_slots)%nat -> lists sorted files s (squeeze (posted s (hist ++ ps)))
      | [(s0, _)] => (s0 < num_slots)%nat /\ unreadable sorted files s0 /\
          forall s, (s < num_slots)%nat -> s <> s0 -> lists sorted files s (squeeze (posted s (hist ++ ps)))
      | _ => False
      end
  | Err _ => log = [] /\ ft <> None
  | _ => False
  end.
Proof.
  intros S B Hps H. destruct (starts_inv x hist S (bounded_app_l _ _ B)) as [log0 I].
  pose proof (shard_file_small x log0 _ I (bounded_app_l _ _ B)) as Hsm.
  apply (to_finv _ _ _ ft) in I. unfold session_f in H.
  destruct (serve_batch_f x ps ft) as [[x1 ft1] l] eqn:E1. injection H as <- <-.
  destruct (serve_batch_f_inv ps _ _ _ _ _ _ _ _ _ I B E1) as (it1 & fin1 & who & I1 & L1 & G1). cbn [who_list app] in L1.
  unfold shard_close_f. destruct I1 as (J1 & J2). rewrite J1.
  destruct (flush_ind_f num_slots 0 x1 ft1) as [[x2 ft2] e] eqn:E2. destruct e as [w|].
  - pose proof (flush_ind_f_err _ _ _ _ _ _ _ E2) as N1. destruct J2 as (_ & _ & J4 & _).
    pose proof (who_none _ _ J4 N1) as ->. cbn [who_list] in L1. split; [congruence|].
    intros ->. apply N1. clear - E1. revert x x1 ft1 l E1. induction ps as [|p ps IH]; intros x x1 ft1 l E1; cbn [serve_batch_f] in E1.
    + inv E1. reflexivity.
    + destruct (serve_post_f x p None) as [[y fy] ly] eqn:Ep. destruct (serve_batch_f y ps fy) as [[z fz] lz] eqn:Eb.
      assert (fy = None) as ->; [|inv E1; eapply IH; exact Eb].
      unfold serve_post_f in Ep. destruct (nth_error _ _) as [po|]; [|inv Ep; reflexivity].
      destruct (add_post_f po (post_docid p) (x_file x) None) as [[[po' f'] ft'] e] eqn:Ea. inv Ep.
      unfold add_post_f in Ea. destruct (_ && _); [inv Ea; reflexivity|]. destruct (_ <=? _)%nat; [|inv Ea; reflexivity].
      apply flush_none in Ea. apply Ea.
  - destruct (flush_ind_f_inv num_slots 0 x1 it1 fin1 _ who ft1 x2 ft2 (conj J1 J2)) as (it2 & fin2 & K1 & K2 & K3);
      [lia|intros; lia|exact E2|].
    assert (flushed x2) as Fl.
    { apply Forall_forall. intros p Hp. apply In_nth_error in Hp. destruct Hp as [s Hs].
      apply (K2 s); [|exact Hs]. pose proof K1 as (K1' & _). rewrite Nat.add_0_l, <- K1'. apply nth_error_Some. congruence. }
    assert (Z.of_nat (length (x_file x2)) < 9223372036854775808)%Z as Hsz.
    { rewrite num_slots_val in K3. clear - K3 G1 Hsm Hps. lia. }
    pose proof (finv_read sorted x2 it2 fin2 _ who ft2 K1 Fl Hsz B) as R.
    destruct who as [[s0 w]|]; cbn [who_list] in L1; subst l; cbn [hit] in R.
    + pose proof (Forall_inv (serve_log_slots _ _ _ _ _ _ E1)) as Hs0. cbn [fst] in Hs0.
      destruct w; [exact R| |]; (split; [exact Hs0|]; split; [specialize (R s0 Hs0); rewrite Nat.eqb_refl in R; exact R|]);
        (intros s Hs Hne; specialize (R s Hs); destruct (Nat.eqb_spec s0 s); [congruence|exact R]).
    + exact R.
Qed.

(** Without a fault it is the model of Model/Shard. *)
Lemma flush_to_f_none p f : flush_to_f p f None = (fst (flush_to p f), apply_wops f (snd (flush_to p f)), None, None).
Proof.
  unfold flush_to_f, flush_to, append_f, write_f. destruct (p_posts p) as [|b r] eqn:E; [reflexivity|].
  destruct (negb (p_link p =? -1)%Z); cbn [negb fst snd app apply_wops fold_left p_posts p_head p_link p_current p_total]; rewrite ?E; reflexivity.
Qed.
Lemma serve_batch_f_none ps : forall x, serve_batch_f x ps None = (serve_batch x ps, None, []).
Proof.
  induction ps as [|p ps IH]; intros x; [reflexivity|]. cbn [serve_batch_f serve_batch fold_left].
  assert (serve_post_f x p None = (serve_post x p, None, [])) as ->.
  { unfold serve_post_f, serve_post, serve_post_w. destruct (nth_error _ _) as [po|]; [|reflexivity].
    unfold add_post_f, add_post. destruct (_ && _); [reflexivity|]. destruct (_ <=? _)%nat; [|reflexivity].
    rewrite flush_to_f_none. destruct (flush_to _ _). reflexivity. }
  rewrite IH. reflexivity.
Qed.
Lemma flush_ind_f_none n : forall i x, flush_ind_f n i x None = (fst (flush_ind_w n i x), None, None).
Proof.
  induction n as [|n IH]; intros i x; [reflexivity|]. cbn [flush_ind_f flush_ind_w].
  destruct (nth_error (x_ind x) i) as [po|]; [|reflexivity]. rewrite flush_to_f_none.
  destruct (flush_to po (x_file x)) as [po' ws]. cbn [fst snd]. rewrite IH.
  destruct (flush_ind_w n (S i) _). reflexivity.
Qed.
Lemma session_f_none x ps : session_f x ps None = (Ok (shard_close (serve_batch x ps)), []).
Proof.
  unfold session_f. rewrite serve_batch_f_none. unfold shard_close_f. rewrite flush_ind_f_none. reflexivity.
Qed.
