(** A shard whose table is older than its posting file is opened again for appending: the
    posters go on from the number and the count of the table, but from the end of the
    chain in the file. *)
From Verif Require Import Model.Base Model.Varint Model.Post Model.Address Model.Poster Model.Shard.
From Verif Require Import Spec.Postings Spec.Reading.
From Verif Require Import Proof.Tactics Proof.VarintP Proof.PosterP Proof.ShardP.
From Verif Require Import Proof.ConcP Proof.CrashP2 Proof.KeepP Proof.MomentsP Proof.LiveP Proof.LinkCutP2.
From Coq Require Import Lia.
Local Open Scope N_scope.

(** * Two posters, the first [d] behind the second *)
Definition behind (d : N) (p q : poster) : Prop :=
  p_link p = p_link q /\ p_head p = p_head q /\ p_posts p = p_posts q /\ p_current q = add32 (p_current p) d /\ p_current p < 4294967296 /\
  p_total p <= p_total q /\ (p_total p = 0 -> p_total q = 0).
(** The post with its document number moved on. *)
Definition shift (sh : nat -> N) (p : post) : post := post_make (add32 (post_docid p) (sh (N.to_nat (serve_slot p)))) (post_blot p).

Lemma add32_same a b d : d < 4294967296 -> a < 4294967296 -> b < 4294967296 -> (add32 a d =? add32 b d) = (a =? b).
Proof. intros. unfold add32, u32. lia. Qed.
Lemma sub32_same a b d : d < 4294967296 -> a < 4294967296 -> b < 4294967296 -> sub32 (add32 a d) (add32 b d) = sub32 a b.
Proof. intros. unfold sub32, add32, u32. lia. Qed.
Lemma flush_behind d p q f : behind d p q -> snd (flush_to p f) = snd (flush_to q f) /\ behind d (fst (flush_to p f)) (fst (flush_to q f)).
Proof.
  intros (A & B & C & D & E & G & I). unfold flush_to. rewrite A, B, C. destruct (p_posts q) eqn:Eq; cbn [fst snd]; (split; [reflexivity|]).
  - unfold behind. rewrite Eq. auto 10.
  - unfold behind. cbn [p_link p_head p_posts p_current p_total]. auto 10.
Qed.
Lemma add_behind d p q v f : d < 4294967296 -> v < 4294967296 -> behind d p q -> p_total q < 4294967295 ->
  snd (add_post p v f) = snd (add_post q (add32 v d) f) /\ behind d (fst (add_post p v f)) (fst (add_post q (add32 v d) f)).
Proof.
  intros Hd Hv Hb Ht. pose proof Hb as (A & B & C & D & E & G & I). unfold add_post. rewrite D, add32_same, sub32_same by assumption.
  assert (Et : (p_total p =? 0) = (p_total q =? 0)) by lia. rewrite Et.
  destruct ((p_current p =? v) && negb (p_total q =? 0)); cbn [fst snd]; [split; [reflexivity|exact Hb]|].
  rewrite A, B, C. set (p' := MkPoster _ _ v _ _). set (q' := MkPoster _ _ (add32 v d) _ _).
  assert (Hb' : behind d p' q').
  { unfold behind, p', q'. cbn [p_link p_head p_posts p_current p_total].
    assert (u32 (p_total p + 1) = p_total p + 1) as -> by (unfold u32; lia). assert (u32 (p_total q + 1) = p_total q + 1) as -> by (unfold u32; lia).
    repeat (split; [reflexivity||assumption||lia|]). lia. }
  change (p_posts p') with (p_posts q'). destruct (flush_rate <=? length (p_posts q'))%nat; [apply flush_behind, Hb'|]. cbn [fst snd]. split; [reflexivity|exact Hb'].
Qed.

Lemma post_blot_32 p : post_blot p < 4294967296.
Proof. unfold post_blot, u32. lia. Qed.
Lemma shift_docid sh p : post_docid (shift sh p) = add32 (post_docid p) (sh (N.to_nat (serve_slot p))).
Proof. unfold shift. apply post_docid_make; [unfold add32, u32; lia|apply post_blot_32]. Qed.
Lemma shift_blot sh p : post_blot (shift sh p) = post_blot p.
Proof. unfold shift. apply post_blot_make; [unfold add32, u32; lia|apply post_blot_32]. Qed.
Lemma shift_slot sh p : serve_slot (shift sh p) = serve_slot p.
Proof. unfold serve_slot. rewrite shift_blot. reflexivity. Qed.

(** * Two shards *)
Lemma open_of sorted ps f : Forall table_ok ps -> length ps = num_slots ->
  shard_open sorted (iix_bytes ps) f = Ok (MkShardIndex (map p_head ps) (map p_total ps) (sorted (map p_total ps)) f).
Proof.
  intros T L. unfold shard_open. rewrite <- L. rewrite <- (app_nil_r (iix_bytes _)), read_table_spec by exact T. cbn [bind]. rewrite !map_map. reflexivity.
Qed.
(** A shard each of whose posters is behind one that fits the log; the log may have chunks of
    slots that there are not, as room that nobody refers to. *)
Definition lagging (sh : nat -> N) (x : shard) (log : list entry) (c : content) : Prop :=
  length (x_ind x) = num_slots /\ x_file x = render 0 log /\ log_ok log /\
  Forall (fun e => (fst e < num_slots + num_slots)%nat) log /\ (forall s, (num_slots <= s)%nat -> nlen (concat (chunks s log)) < 4294967296) /\
  forall s p, nth_error (x_ind x) s = Some p -> exists q, behind (sh s) p q /\ poster_inv s log q (c s).
Section Behind.
  Variable sh : nat -> N.
  Hypothesis Hsh : forall s, sh s < 4294967296.
  Lemma lagging_ext x log c c' : (forall s, c s = c' s) -> lagging sh x log c -> lagging sh x log c'.
  Proof.
    intros E (I1 & I2 & I3 & I4 & I5 & I6). unfold lagging. repeat (split; [assumption|]). intros s p H. rewrite <- E. auto.
  Qed.
  Lemma upd_lagging x log log' c s p q c' f' : lagging sh x log c -> (s < num_slots)%nat ->
    (log' = log \/ exists ds, log' = log ++ [(s, ds)]) -> f' = render 0 log' -> log_ok log' -> behind (sh s) p q -> poster_inv s log' q (c' s) ->
    (forall s', s' <> s -> c' s' = c s') -> lagging sh (MkShard (upd s p (x_ind x)) f') log' c'.
  Proof.
    intros (I1 & I2 & I3 & I4 & I5 & I6) Hs Hlog Hf Hok Hb Hp Hc. unfold lagging. cbn [x_ind x_file]. rewrite upd_length.
    split; [auto|]. split; [auto|]. split; [auto|]. split; [|split].
    - destruct Hlog as [->|[ds ->]]; auto. apply Forall_app. split; auto. constructor; [cbn [fst]; clear - Hs; lia|constructor].
    - intros s' Ls. destruct Hlog as [->|[ds ->]]; auto. rewrite chunks_snoc. assert ((s =? s')%nat = false) as -> by (apply Nat.eqb_neq; clear - Hs Ls; lia). rewrite app_nil_r. auto.
    - intros s' p' H. rewrite nth_error_upd in H. destruct (Nat.eqb_spec s s') as [<-|Hne].
      + destruct (nth_error (x_ind x) s); inv H. eauto.
      + rewrite Hc by congruence. apply I6 in H. destruct H as (q' & B' & P'). exists q'. split; [exact B'|].
        destruct Hlog as [->|[ds ->]]; auto. apply poster_inv_other; auto.
  Qed.
  Lemma serve_lagging x log c p : lagging sh x log c -> nlen (c (ShardP.slot_of p)) < 4294967295 ->
    exists log', lagging sh (serve_post x p) log' (add_to c (shift sh p)).
  Proof.
    intros I Hn. pose proof I as (I1 & I2 & I3 & I4 & I5 & I6). unfold serve_post, serve_post_w, serve_slot. rewrite land_ffff. fold (ShardP.slot_of p).
    pose proof (slot_of_lt p) as Hs. destruct (nth_error (x_ind x) (ShardP.slot_of p)) as [po|] eqn:E; [|apply nth_error_None in E; clear - E Hs I1; lia].
    destruct (I6 _ _ E) as (q & Hb & Hp).
    assert (Es : ShardP.slot_of (shift sh p) = ShardP.slot_of p) by (unfold ShardP.slot_of; rewrite shift_blot; reflexivity).
    assert (Ed : post_docid (shift sh p) = add32 (post_docid p) (sh (ShardP.slot_of p))).
    { rewrite shift_docid. unfold serve_slot. rewrite land_ffff. reflexivity. }
    assert (Ht : p_total q < 4294967295) by (destruct Hp as (_ & _ & _ & -> & _); clear - Hn; unfold u32; lia).
    destruct (add_behind (sh (ShardP.slot_of p)) po q (post_docid p) (x_file x) (Hsh _) (post_docid_d32 p) Hb Ht) as [Ew Hb'].
    destruct (add_post_inv _ log q _ (x_file x) (post_docid (shift sh p)) I2 I3 Hp (post_docid_d32 _) ltac:(clear - Hn; lia)) as (log' & L1 & L2 & L3 & L4).
    rewrite Ed in L1, L3. rewrite <- Ew in L1. destruct (add_post po (post_docid p) (x_file x)) as [po' ws]. destruct (add_post q _ (x_file x)) as [q' ws2]. cbn [fst snd] in *.
    exists log'. eapply upd_lagging; eauto.
    - unfold add_to. rewrite Es, Nat.eqb_refl, Ed. exact L3.
    - intros s' Hne. unfold add_to. rewrite Es. destruct (Nat.eqb_spec s' (ShardP.slot_of p)); congruence.
  Qed.
  Lemma batch_lagging ps : forall x log hist, lagging sh x log (content_of hist) ->
    (forall s, nlen (content_of (hist ++ map (shift sh) ps) s) < 4294967295) ->
    exists log', lagging sh (serve_batch x ps) log' (content_of (hist ++ map (shift sh) ps)).
  Proof.
    induction ps as [|p ps IH]; intros x log hist J Bd; cbn [serve_batch fold_left map] in *; [rewrite app_nil_r; eauto|].
    assert (B0 : forall s, nlen (content_of hist s) < 4294967295).
    { intros s. specialize (Bd s). unfold content_of in *. rewrite posted_app in Bd. pose proof (squeeze_prefix_length (posted s hist) (posted s (shift sh p :: map (shift sh) ps))) as X.
      unfold nlen in *. lia. }
    destruct (serve_lagging x log _ p J (B0 _)) as [log1 J1].
    eapply lagging_ext in J1; [|intros s; apply add_to_content].
    replace (hist ++ shift sh p :: map (shift sh) ps) with ((hist ++ [shift sh p]) ++ map (shift sh) ps) in * by (rewrite <- app_assoc; reflexivity).
    exact (IH _ _ _ J1 Bd).
  Qed.
  Lemma flush_ind_lagging n : forall i x log c, lagging sh x log c -> (i + n <= num_slots)%nat ->
    (forall s p, (s < i)%nat -> nth_error (x_ind x) s = Some p -> p_posts p = []) ->
    exists log', lagging sh (fst (flush_ind_w n i x)) log' c /\
      forall s p, (s < i + n)%nat -> nth_error (x_ind (fst (flush_ind_w n i x))) s = Some p -> p_posts p = [].
  Proof.
    induction n as [|n IH]; intros i x log c I Hi Hd; cbn [flush_ind_w].
    - exists log. cbn [fst]. rewrite Nat.add_0_r. auto.
    - pose proof I as (I1 & I2 & I3 & I4 & I5 & I6).
      destruct (nth_error (x_ind x) i) as [po|] eqn:E; [|apply nth_error_None in E; clear - E Hi I1; lia].
      destruct (I6 _ _ E) as (q & Hb & Hp). destruct (flush_behind (sh i) po q (x_file x) Hb) as [Ew Hb'].
      destruct (flush_inv i log q _ (x_file x) I2 I3 Hp) as (log1 & L1 & L2 & L3 & L4 & L5).
      rewrite <- Ew in L1. assert (L4' : p_posts (fst (flush_to po (x_file x))) = []) by (destruct Hb' as (_ & _ & -> & _); exact L4).
      destruct (flush_to po (x_file x)) as [po' ws]. destruct (flush_to q (x_file x)) as [q' ws2]. cbn [fst snd] in *.
      set (x1 := MkShard _ _). assert (Ix1 : lagging sh x1 log1 c) by (eapply upd_lagging; eauto; clear - Hi; lia).
      destruct (IH (S i) x1 log1 c Ix1 ltac:(clear - Hi; lia)) as (log2 & J1 & J2).
      { intros s p Hs H. unfold x1 in H. cbn [x_ind] in H. rewrite nth_error_upd in H. destruct (Nat.eqb_spec i s) as [<-|Hne].
        - rewrite E in H. inv H. exact L4'.
        - apply (Hd s); [clear - Hs Hne; lia|exact H]. }
      destruct (flush_ind_w n (S i) x1) as [x2 ws']. cbn [fst] in *. exists log2. split; [exact J1|]. intros s p Hs. apply J2. clear - Hs. lia.
  Qed.
  Lemma close_lagging x log c : lagging sh x log c -> exists log', lagging sh (flush_ind x) log' c /\ flushed (flush_ind x).
  Proof.
    intros I. pose proof I as (I1 & _). unfold flush_ind. rewrite I1.
    destruct (flush_ind_lagging num_slots 0 x log c I) as (log' & J1 & J2); [clear; lia|intros; exfalso; clear - H; lia|].
    exists log'. split; [exact J1|]. apply Forall_forall. intros p Hp. apply In_nth_error in Hp. destruct Hp as [s Hs].
    apply (J2 s); [|exact Hs]. pose proof J1 as (K1 & _). rewrite <- K1. rewrite Nat.add_0_l. apply nth_error_Some. congruence.
  Qed.
  Lemma lagging_size x log c : lagging sh x log c -> (forall s, nlen (c s) < 4294967296) -> (Z.of_nat (log_size log) < 9223372036854775808)%Z.
  Proof.
    intros (I1 & I2 & I3 & I4 & I5 & I6) H. pose proof (log_size_count log I3) as L. pose proof (log_count_sum _ log I4) as C.
    assert (sum_to (num_slots + num_slots) (fun s => nlen (concat (chunks s log))) <= N.of_nat (num_slots + num_slots) * 4294967296) as B.
    { apply sum_to_bound. intros s Hs. destruct (nth_error (x_ind x) s) as [p|] eqn:E.
      - destruct (I6 s p E) as (q & _ & P). pose proof (poster_inv_count _ _ _ _ P). specialize (H s). lia.
      - apply nth_error_None in E. rewrite I1 in E. specialize (I5 s E). lia. }
    rewrite <- C, num_slots_val in B. clear - B L. lia.
  Qed.

  Lemma shift_posted s ps : posted s (map (shift sh) ps) = map (fun v => add32 v (sh s)) (posted s ps).
  Proof.
    induction ps as [|p ps IH]; [reflexivity|]. cbn [map]. unfold posted in *. cbn [filter]. rewrite shift_blot.
    destruct (N.eqb_spec (post_blot p mod 65536) (N.of_nat s)) as [E|E]; [|exact IH]. cbn [map]. rewrite IH, shift_docid. do 3 f_equal.
    unfold serve_slot. rewrite land_ffff, E. apply Nat2N.id.
  Qed.

  (** What the closed files of the shard left behind read as. *)
  Lemma lagging_reads sorted x log c : lagging sh x log c -> (forall s, nlen (c s) < 4294967296) ->
    exists si, shard_open sorted (fst (shard_close x)) (snd (shard_close x)) = Ok si /\
      forall s, (s < num_slots)%nat -> reads (si_file si) (new_posts (nth s (si_heads si) (-1)%Z)) (c s).
  Proof.
    intros J Bd. destruct (close_lagging x log c J) as (L & K & Fl). pose proof (lagging_size _ _ _ K Bd) as Sz.
    destruct K as (K1 & K2 & K3 & K4 & K5 & K6).
    assert (T : Forall table_ok (x_ind (flush_ind x))).
    { apply Forall_forall. intros p Hp. apply In_nth_error in Hp. destruct Hp as [s Es]. destruct (K6 s p Es) as (q & (_ & B2 & _ & _ & B5 & B6 & _) & (_ & P2 & _ & P4 & _)).
      unfold table_ok. rewrite B2, P2. split; [destruct (next_off_range s L 0); clear - H Sz; lia|]. split; [rewrite P4 in B6; clear - B6; unfold u32 in B6; lia|exact B5]. }
    unfold shard_close. cbn [fst snd]. rewrite (open_of sorted _ _ T K1). eexists. split; [reflexivity|]. cbn [si_file si_heads].
    intros s Ls. destruct (nth_error (x_ind (flush_ind x)) s) as [p|] eqn:E; [|apply nth_error_None in E; clear - E Ls K1; lia].
    rewrite (nth_map_error _ _ _ _ _ E). destruct (K6 s p E) as (q & (_ & B2 & B3 & _) & (_ & P2 & _ & _ & _ & pend & P6 & _ & _ & P9)).
    assert (Ep : p_posts p = []) by (unfold flushed in Fl; rewrite Forall_forall in Fl; apply Fl; eapply nth_error_In, E).
    assert (pend = []) as ->.
    { rewrite B3, P6 in Ep. pose proof (payload_length_ge pend) as X. rewrite Ep in X. destruct pend; [reflexivity|cbn in X; lia]. }
    rewrite app_nil_r in P9. rewrite <- P9, B2, P2, K2. unfold new_posts. exact (reads_log L s K3 Sz L [] 0%nat 0 [] eq_refl eq_refl).
  Qed.
End Behind.

(** * Chunks nobody refers to *)
Section Relabel.
  Variable r : nat -> nat.
  Definition relabel (log : list entry) : list entry := map (fun e => (r (fst e), snd e)) log.
  Hypothesis Hr : forall a b, (a < num_slots)%nat -> (b < num_slots)%nat -> r a = r b -> a = b.
  Lemma relabel_eqb a b : (a < num_slots)%nat -> (b < num_slots)%nat -> (r a =? r b)%nat = (a =? b)%nat.
  Proof. intros A B. destruct (Nat.eqb_spec a b) as [->|Ne]; [apply Nat.eqb_refl|]. apply Nat.eqb_neq. intros X. apply Ne, Hr; assumption. Qed.
  Lemma relabel_size log : log_size (relabel log) = log_size log.
  Proof. induction log as [|[s ds] l IH]; [reflexivity|]. cbn [relabel map fst snd log_size] in *. unfold relabel in IH. rewrite IH. reflexivity. Qed.
  Lemma relabel_off s log : (s < num_slots)%nat -> Forall (fun e => (fst e < num_slots)%nat) log -> forall base, next_off (r s) base (relabel log) = next_off s base log.
  Proof.
    intros Ls. induction log as [|[s' ds] l IH]; intros H base; [reflexivity|]. inv H. cbn [relabel map fst snd next_off] in *. rewrite relabel_eqb by assumption.
    destruct (s' =? s)%nat; [reflexivity|]. apply IH. assumption.
  Qed.
  Lemma relabel_link s log : (s < num_slots)%nat -> Forall (fun e => (fst e < num_slots)%nat) log -> forall base, link_pos (r s) base (relabel log) = link_pos s base log.
  Proof.
    intros Ls. induction log as [|[s' ds] l IH]; intros H base; [reflexivity|]. inv H. cbn [relabel map fst snd link_pos] in *. rewrite relabel_eqb by assumption.
    unfold relabel in IH. rewrite IH by assumption. reflexivity.
  Qed.
  Lemma relabel_chunks s log : (s < num_slots)%nat -> Forall (fun e => (fst e < num_slots)%nat) log -> chunks (r s) (relabel log) = chunks s log.
  Proof.
    intros Ls. unfold chunks. induction log as [|[s' ds] l IH]; intros H; [reflexivity|]. inv H. cbn [relabel map filter fst snd] in *. rewrite relabel_eqb by assumption.
    destruct (s' =? s)%nat; cbn [map snd]; [f_equal|]; apply IH; assumption.
  Qed.
  Lemma relabel_render log : Forall (fun e => (fst e < num_slots)%nat) log -> forall base, render base (relabel log) = render base log.
  Proof.
    induction log as [|[s ds] l IH]; intros H base; [reflexivity|]. inv H. cbn [relabel map fst snd render] in *. fold (relabel l). rewrite relabel_off by assumption. rewrite IH by assumption. reflexivity.
  Qed.
  Lemma relabel_ok log : log_ok log -> log_ok (relabel log).
  Proof. intros H. unfold log_ok, relabel in *. rewrite Forall_map. exact H. Qed.
  (** A slot that no chunk is of any more. *)
  Lemma relabel_none s log : (forall a, (a < num_slots)%nat -> r a <> s) -> Forall (fun e => (fst e < num_slots)%nat) log -> ~ In s (map fst (relabel log)).
  Proof.
    intros N0 H Hin. unfold relabel in Hin. rewrite map_map in Hin. apply in_map_iff in Hin. destruct Hin as ([a ds] & E & Hin). cbn [fst] in E. rewrite Forall_forall in H. specialize (H _ Hin). cbn [fst] in H. exact (N0 a H E).
  Qed.
End Relabel.
Lemma none_chunks s log : ~ In s (map fst log) -> chunks s log = [].
Proof.
  unfold chunks. induction log as [|[s' ds] l IH]; intros H; [reflexivity|]. cbn [map fst In filter] in *. destruct (Nat.eqb_spec s' s) as [->|_]; [exfalso; apply H; left; reflexivity|]. apply IH. tauto.
Qed.

(** * Opening a shard whose table is older than its posting file *)
Lemma no_chunk s log : log_ok log -> concat (chunks s log) = [] -> next_off s 0 log = (-1)%Z.
Proof.
  intros Lk E. apply PosterP.next_off_none. intros Hin. revert Lk E Hin. induction log as [|[s' ds] r IH]; intros Lk E Hin; [destruct Hin|]. inversion Lk as [|? ? H1 H2]; subst.
  unfold chunks in E, IH. cbn [filter fst] in E. cbn [map fst In] in Hin. destruct (Nat.eqb_spec s' s) as [->|Ne].
  - cbn [map snd concat] in E. destruct H1 as (X & _). cbn [snd] in X. destruct ds; [congruence|discriminate].
  - destruct Hin as [X|Hin]; [congruence|]. apply IH; assumption.
Qed.
Lemma links_all L : log_ok L -> (Z.of_nat (log_size L) < 9223372036854775808)%Z -> forall ps i,
  (forall s p, nth_error ps s = Some p -> p_link p = (-1)%Z /\ p_head p = next_off (i + s) 0 L) ->
  exists ps', read_links ps (render 0 L) = Ok ps' /\ length ps' = length ps /\
    forall s p, nth_error ps s = Some p -> nth_error ps' s = Some (MkPoster (link_pos (i + s) 0 L) (p_head p) (p_current p) (p_total p) (p_posts p)).
Proof.
  intros Lk Sz. induction ps as [|p ps IH]; intros i H; cbn [read_links].
  - exists []. split; [reflexivity|]. split; [reflexivity|]. intros [|s]; discriminate.
  - destruct (H O p eq_refl) as [A B]. rewrite Nat.add_0_r in B. rewrite (read_to_link_spec L i p Lk Sz B A). cbn [bind].
    destruct (IH (Datatypes.S i)) as (ps' & -> & Ln & Nx). { intros s q E. replace (Datatypes.S i + s)%nat with (i + Datatypes.S s)%nat by lia. apply H. exact E. }
    cbn [bind]. eexists. split; [reflexivity|]. cbn [length]. split; [lia|]. intros [|s] q E; cbn [nth_error] in *.
    + rewrite Nat.add_0_r. congruence.
    + replace (i + Datatypes.S s)%nat with (Datatypes.S i + s)%nat by lia. apply Nx, E.
Qed.

Section Stale.
  Variables (y : shard) (log : list entry) (hist more : list post).
  Hypothesis J : shard_inv y log (content_of hist).
  Hypothesis Fl : flushed y.
  Hypothesis Sz : (Z.of_nat (log_size log) < 9223372036854775808)%Z.
  Hypothesis B : bounded (hist ++ more).
  (** The posts that can be found: those of slots that the table has a chain of. *)
  Definition fresh (s : nat) : bool := match content_of hist s with [] => true | _ => false end.
  Definition old : list post := filter (fun p => negb (fresh (ShardP.slot_of p))) (hist ++ more).
  (** How far the table is behind. *)
  Definition lag (s : nat) : N := sub32 (last (content_of old s) 0) (last (content_of hist s) 0).
  Let y1 := flush_ind (serve_batch y more).
  Let r (s : nat) : nat := if fresh s then (num_slots + s)%nat else s.

  Lemma flushed_empty x L c s p : shard_inv x L c -> flushed x -> nth_error (x_ind x) s = Some p -> p_head p = (-1)%Z -> c s = [].
  Proof.
    clear. intros (I1 & I2 & I3 & I4 & I5) Fx E Eh. destruct (I5 s p E) as (_ & H2 & _ & _ & _ & pend & H6 & _ & _ & H9). rewrite Eh in H2. symmetry in H2. apply PosterP.next_off_none in H2.
    rewrite (none_chunks _ _ H2) in H9. cbn [concat app] in H9. assert (Ep : p_posts p = []) by (unfold flushed in Fx; rewrite Forall_forall in Fx; apply Fx; eapply nth_error_In, E).
    rewrite H6 in Ep. pose proof (payload_length_ge pend) as X. rewrite Ep in X. destruct pend; [|cbn [length] in X; lia]. rewrite <- H9. reflexivity.
  Qed.
  Lemma empty_head x L c s p : shard_inv x L c -> nth_error (x_ind x) s = Some p -> c s = [] -> p_head p = (-1)%Z.
  Proof.
    clear. intros (I1 & I2 & I3 & I4 & I5) E Ec. destruct (I5 s p E) as (_ & H2 & _ & _ & _ & pend & _ & _ & _ & H9). rewrite Ec in H9. rewrite H2. apply no_chunk; [exact I3|].
    assert (X : length (concat (chunks s L) ++ pend) = 0%nat) by (rewrite <- (sums_length 0), H9; reflexivity). rewrite app_length in X. destruct (concat (chunks s L)); [reflexivity|cbn [length] in X; lia].
  Qed.
  Lemma posted_old s : (s < num_slots)%nat -> posted s old = if fresh s then [] else posted s (hist ++ more).
  Proof.
    intros Ls. unfold old, posted. clear J Fl Sz B y1 r. induction (hist ++ more) as [|p l IH]; cbn [filter map]; [destruct (fresh s); reflexivity|].
    destruct (N.eqb_spec (post_blot p mod 65536) (N.of_nat s)) as [E|E].
    - assert (Es : ShardP.slot_of p = s) by (unfold ShardP.slot_of; rewrite E; apply Nat2N.id). rewrite Es. destruct (fresh s) eqn:Ef; cbn [negb].
      + exact IH.
      + cbn [filter]. rewrite E, N.eqb_refl. cbn [map]. rewrite IH. reflexivity.
    - destruct (negb (fresh (ShardP.slot_of p))); [|exact IH]. cbn [filter]. destruct (N.eqb_spec (post_blot p mod 65536) (N.of_nat s)); [contradiction|]. exact IH.
  Qed.
  Lemma content_old s : (s < num_slots)%nat -> content_of old s = if fresh s then [] else content_of (hist ++ more) s.
  Proof. intros Ls. unfold content_of. rewrite posted_old by exact Ls. destruct (fresh s); reflexivity. Qed.
  Lemma r_inj a b : (a < num_slots)%nat -> (b < num_slots)%nat -> r a = r b -> a = b.
  Proof. unfold r. intros A A2. clear - A A2. destruct (fresh a), (fresh b); lia. Qed.

  Lemma stale_open : exists z L, shard_append (iix_bytes (x_ind y)) (x_file y1) = Ok z /\ lagging lag z L (content_of old).
  Proof.
    destruct (serve_batch_inv more y log hist J B) as [L0 K0]. destruct (flush_ind_spec _ _ _ K0) as (L & K & Fl1). fold y1 in K, Fl1.
    pose proof K as (K1 & K2 & K3 & K4 & K5). pose proof J as (J1 & J2 & J3 & J4 & J5).
    assert (SzL : (Z.of_nat (log_size L) < 9223372036854775808)%Z) by (apply (shard_file_size _ _ _ K); intros s; apply B).
    rewrite (append_read y log _ _ J Sz), K2. set (L' := relabel r L).
    assert (Er : render 0 L = render 0 L') by (symmetry; apply (relabel_render r r_inj L K4)). rewrite Er.
    pose proof (relabel_ok r L K3 : log_ok L') as K3'. assert (SzL' : (Z.of_nat (log_size L') < 9223372036854775808)%Z) by (unfold L'; rewrite relabel_size; exact SzL).
    assert (Nf : forall s, (s < num_slots)%nat -> fresh s = true -> ~ In s (map fst L')).
    { intros s Ls Fs. apply (relabel_none r s L); [|exact K4]. intros a La. unfold r. destruct (fresh a) eqn:Fa; [clear - Ls; lia|]. intros ->. congruence. }
    assert (Rf : forall s, fresh s = false -> r s = s) by (intros s Fs; unfold r; rewrite Fs; reflexivity).
    assert (G : grown log y1) by (apply flush_ind_grown, serve_batch_grown; eapply inv_grown, J).
    assert (Hd : forall s p, nth_error (x_ind y) s = Some p -> p_head p = next_off s 0 L').
    { intros s p E. assert (Ls : (s < num_slots)%nat) by (rewrite <- J1; eapply nth_len, E). destruct (fresh s) eqn:Fs.
      - assert (Ec : content_of hist s = []) by (unfold fresh in Fs; destruct (content_of hist s); [reflexivity|discriminate]).
        rewrite (empty_head y log _ s p J E Ec). symmetry. apply PosterP.next_off_none, Nf; assumption.
      - destruct (old_heads y log y1 L _ _ s p J G K E) as [X|X].
        + exfalso. pose proof (flushed_empty y log _ s p J Fl E X) as Ec. unfold fresh in Fs. rewrite Ec in Fs. discriminate.
        + rewrite X. pose proof (relabel_off r r_inj s L Ls K4 0%nat) as Y. rewrite (Rf s Fs) in Y. symmetry. exact Y. }
    destruct (links_all L' K3' SzL' (map reread (x_ind y)) 0) as (ps' & -> & Ln & Nx).
    { intros s p E. rewrite nth_error_map in E. destruct (nth_error (x_ind y) s) as [q|] eqn:Eq; [|discriminate]. cbn [option_map] in E. injection E as <-. unfold reread. cbn [p_link p_head Nat.add]. split; [reflexivity|apply Hd, Eq]. }
    cbn [bind]. exists (MkShard ps' (render 0 L')), L'. split; [reflexivity|]. unfold lagging. cbn [x_file x_ind]. rewrite map_length in Ln. split; [rewrite Ln; exact J1|]. split; [reflexivity|]. split; [exact K3'|].
    split; [|split].
    - unfold L', relabel. apply Forall_map. cbn [fst]. eapply Forall_impl; [|exact K4]. intros [a ds]. cbn [fst]. intros La. unfold r. clear - La. destruct (fresh a); lia.
    - intros s Ls. destruct (Nat.lt_ge_cases s (num_slots + num_slots)) as [L2|L2].
      + set (a := (s - num_slots)%nat). assert (La : (a < num_slots)%nat) by (unfold a; clear - Ls L2; lia). assert (Es : s = (num_slots + a)%nat) by (unfold a; clear - Ls; lia).
        destruct (fresh a) eqn:Fa.
        * assert (Ra : r a = s) by (unfold r; rewrite Fa; symmetry; exact Es). rewrite <- Ra. unfold L'. rewrite (relabel_chunks r r_inj a L La K4).
          destruct (nth_ex (x_ind y1) a) as [q Eq]; [rewrite K1; exact La|]. pose proof (poster_inv_count _ _ _ _ (K5 a q Eq)) as X. pose proof (B a) as X2. unfold content_of in X. clear - X X2. lia.
        * rewrite none_chunks; [clear; unfold nlen; cbn; lia|]. apply (relabel_none r s L); [|exact K4]. intros b Lb E. unfold r in E. destruct (fresh b) eqn:Fb.
          -- assert (b = a) by (clear - E Es; lia). congruence.
          -- clear - E Lb Ls. lia.
      + rewrite none_chunks; [clear; unfold nlen; cbn; lia|]. apply (relabel_none r s L); [|exact K4]. intros b Lb E. unfold r in E. clear - E Lb L2. destruct (fresh b); lia.
    - intros s p' E. destruct (nth_ex (x_ind y) s) as [p Ep]; [rewrite <- Ln; eapply nth_len, E|].
      assert (Ls : (s < num_slots)%nat) by (rewrite <- J1; eapply nth_len, Ep).
      assert (Err : nth_error (map reread (x_ind y)) s = Some (reread p)) by (rewrite nth_error_map, Ep; reflexivity).
      rewrite (Nx s _ Err) in E. injection E as <-. unfold reread. cbn [p_head p_current p_total p_posts Nat.add]. rewrite (Hd s p Ep).
      destruct (J5 s p Ep) as (_ & P2 & P3 & P4 & P5 & _). rewrite (content_old s Ls). unfold lag. rewrite (content_old s Ls). destruct (fresh s) eqn:Fs.
      + assert (Ec : content_of hist s = []) by (unfold fresh in Fs; destruct (content_of hist s); [reflexivity|discriminate]). rewrite Ec in *. cbn [last] in *.
        exists (MkPoster (link_pos s 0 L') (next_off s 0 L') (p_current p) (p_total p) []). split.
        * unfold behind. cbn [p_link p_head p_current p_total p_posts]. split; [reflexivity|]. split; [reflexivity|]. split; [reflexivity|]. split; [rewrite P3; reflexivity|]. split; [rewrite P3; clear; lia|]. split; [apply N.le_refl|]. intros X; exact X.
        * unfold poster_inv. cbn [p_link p_head p_current p_total p_posts]. split; [reflexivity|]. split; [reflexivity|]. split; [rewrite P3; reflexivity|]. split; [rewrite P4; reflexivity|]. split; [constructor|].
          exists []. split; [reflexivity|]. split; [constructor|]. split; [cbn; clear; lia|]. rewrite (none_chunks _ _ (Nf s Ls Fs)). reflexivity.
      + destruct (nth_ex (x_ind y1) s) as [q Eq]; [rewrite K1; exact Ls|]. destruct (K5 s q Eq) as (Q1 & Q2 & Q3 & Q4 & Q5 & Q6).
        pose proof (relabel_off r r_inj s L Ls K4 0%nat) as R1. pose proof (relabel_link r r_inj s L Ls K4 0%nat) as R2. pose proof (relabel_chunks r r_inj s L Ls K4) as R3. rewrite (Rf s Fs) in R1, R2, R3. fold L' in R1, R2, R3.
        exists q. split.
        * unfold behind. cbn [p_link p_head p_current p_total p_posts]. split; [rewrite Q1; exact R2|]. split; [rewrite Q2; exact R1|].
          split; [unfold flushed in Fl1; rewrite Forall_forall in Fl1; symmetry; apply Fl1; eapply nth_error_In, Eq|].
          pose proof (last_d32 _ P5) as D1. pose proof (last_d32 _ Q5) as D2. pose proof (B s) as B1. fold (content_of (hist ++ more) s) in B1.
          assert (B2 : (length (content_of hist s) <= length (content_of (hist ++ more) s))%nat) by (unfold content_of; rewrite posted_app; apply squeeze_prefix_length).
          split; [rewrite P3, Q3; symmetry; apply add32_sub32; assumption|]. split; [rewrite P3; exact D1|].
          assert (B3 : content_of hist s <> []) by (intros Ec; unfold fresh in Fs; rewrite Ec in Fs; discriminate).
          rewrite P4, Q4. unfold u32. unfold nlen in *. rewrite !N.mod_small by (clear - B1 B2; lia). split; [clear - B2; lia|]. intros X. destruct (content_of hist s); [congruence|cbn [length] in X; clear - X; lia].
        * unfold poster_inv. rewrite R1, R2, R3. split; [exact Q1|]. split; [exact Q2|]. split; [exact Q3|]. split; [exact Q4|]. split; [exact Q5|exact Q6].
  Qed.

  (** A further session, closed. *)
  Theorem stale_reads sorted later : (forall s, nlen (content_of (old ++ map (shift lag) later) s) < 4294967295) ->
    exists z si, shard_append (iix_bytes (x_ind y)) (x_file y1) = Ok z /\
      shard_open sorted (fst (shard_close (serve_batch z later))) (snd (shard_close (serve_batch z later))) = Ok si /\
      forall s, (s < num_slots)%nat -> reads (si_file si) (new_posts (nth s (si_heads si) (-1)%Z)) (content_of (old ++ map (shift lag) later) s).
  Proof.
    intros Bd. destruct stale_open as (z & L & E & Hb).
    assert (Hl : forall s, lag s < 4294967296) by (intros s; apply sub32_d32).
    destruct (batch_lagging lag Hl later z L old Hb Bd) as [L2 K2].
    destruct (lagging_reads lag Hl sorted (serve_batch z later) L2 _ K2) as (si & E2 & R); [intros s; specialize (Bd s); clear - Bd; lia|].
    exists z, si. auto.
  Qed.
End Stale.
