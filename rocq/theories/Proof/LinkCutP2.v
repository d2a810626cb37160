(** An append session that is stopped between the write of a link and that of the chunk. *)
From Verif Require Import Model.Base Model.Address Model.Varint Model.Utf8 Model.Token Model.Blotter Model.Post Model.Poster Model.Shatter Model.Shard Model.Dmd Model.Fnames Model.Conc Model.Config Model.Json Model.Run Model.Index Model.Query Model.Session Model.Crash Model.Live.
From Verif Require Import Spec.Text Spec.Fingerprint Spec.Configs Spec.Posting Spec.Postings Spec.Paths Spec.Reading Spec.Querying Spec.History Spec.Live.
From Verif Require Import Proof.Tactics Proof.VarintP Proof.TokenP Proof.BlotterP Proof.ShatterP Proof.IndexP2 Proof.DmdP Proof.FnamesP Proof.FnamesP2 Proof.PosterP Proof.ShardP Proof.ConcP Proof.ConcRun Proof.QueryP Proof.JsonP Proof.ConfigP Proof.SessionP Proof.SessionP2 Proof.JsonP2 Proof.CutP Proof.CrashP Proof.KeepP Proof.CrashP2 Proof.CrashP3 Proof.LiveP Proof.MomentsP Proof.LinkCutP.
Local Open Scope N_scope.

Lemma old_heads y log z L c0 c1 i p : shard_inv y log c0 -> grown log z -> shard_inv z L c1 -> nth_error (x_ind y) i = Some p ->
  p_head p = (-1)%Z \/ p_head p = next_off i 0 L.
Proof.
  intros (I1 & _ & _ & _ & I5) (extra & _ & G) (K1 & _ & _ & _ & K5) Ep. destruct (I5 i p Ep) as (_ & H & _).
  destruct (nth_ex (x_ind z) i) as [q Eq]; [rewrite K1, <- I1; eapply nth_len, Ep|].
  destruct (G i q Eq) as (_ & G2 & _). destruct (K5 i q Eq) as (_ & K & _). rewrite H.
  destruct (Z.eq_dec (next_off i 0 log) (-1)) as [E|E]; [left; exact E|]. right. rewrite <- K, G2. symmetry. apply next_off_app. eapply next_off_in, E.
Qed.
Definition reread (p : poster) : poster := MkPoster (-1) (p_head p) (p_current p) (p_total p) [].
Lemma append_read y log c pos : shard_inv y log c -> (Z.of_nat (log_size log) < 9223372036854775808)%Z ->
  shard_append (iix_bytes (x_ind y)) pos = do! ps <- read_links (map reread (x_ind y)) pos; Ok (MkShard ps pos).
Proof.
  intros J Sz. pose proof (shard_inv_table_ok _ _ _ J Sz) as T. destruct J as (I1 & _).
  unfold shard_append. rewrite <- I1. rewrite <- (app_nil_r (iix_bytes _)), read_iix_spec by assumption. reflexivity.
Qed.
Lemma reread_heads y log z L c0 c1 : shard_inv y log c0 -> grown log z -> shard_inv z L c1 ->
  forall j p, nth_error (map reread (x_ind y)) j = Some p -> p_link p = (-1)%Z /\ (p_head p = (-1)%Z \/ p_head p = next_off (0 + j) 0 L).
Proof.
  intros J G K j p E. rewrite nth_error_map in E. destruct (nth_error (x_ind y) j) as [q|] eqn:Eq; [|discriminate]. cbn [option_map] in E. assert (p = reread q) as -> by congruence.
  split; [reflexivity|]. unfold reread. cbn [p_head Nat.add]. exact (old_heads y log z L c0 c1 j q J G K Eq).
Qed.

Section Shard.
  Variables (y : shard) (log : list entry) (hist more : list post).
  Hypothesis J : shard_inv y log (content_of hist).
  Hypothesis Fl : flushed y.
  Hypothesis Sz : (Z.of_nat (log_size log) < 9223372036854775808)%Z.
  Hypothesis B : bounded (hist ++ more).
  Notation z := (serve_batch y more).

  (** The posts have been served; nothing pending has been written. *)
  Lemma shard_between : exists x, shard_append (iix_bytes (x_ind y)) (x_file z) = Ok x.
  Proof.
    destruct (serve_batch_inv more y log hist J B) as [L K]. pose proof K as (K1 & K2 & K3 & _).
    assert (SzL : (Z.of_nat (log_size L) < 9223372036854775808)%Z) by (apply (shard_file_size _ _ _ K); intros s; apply B).
    rewrite (append_read y log _ _ J Sz).
    assert (Ef : x_file z = firstn (log_size L) (render 0 (L ++ []))) by (rewrite app_nil_r, K2, firstn_all2; [reflexivity|rewrite render_length; lia]).
    destruct (cut_links_ok L [] (x_file z) (or_introl eq_refl) K3 SzL Ef (map reread (x_ind y)) 0) as [ps ->]; [|cbn [bind]; eauto].
    intros i p E. destruct (reread_heads y log z L _ _ J (serve_batch_grown log more y (inv_grown _ _ _ J)) K i p E) as [A C]. split; [exact A|]. split; [exact C|]. intros [].
  Qed.
  (** The link of slot [s] has been written, the chunk not. *)
  Variables (s : nat) (p0 : poster) (D : N).
  Hypothesis Ls : (s < num_slots)%nat.
  Hypothesis Ep : nth_error (x_ind y) s = Some p0.
  Hypothesis HM : Forall (fun p => post_docid p = D) more.
  Hypothesis HP : exists p, In p more /\ N.to_nat (serve_slot p) = s.
  Hypothesis HD : ~ In D (content_of hist s).
  Hypothesis HD0 : D <> 0.
  Hypothesis HC : content_of (hist ++ more) s = content_of hist s ++ [D].
  Hypothesis HT : forall i, (i < num_slots)%nat -> nlen (content_of hist i) < 4294967295.
  Hypothesis HN : content_of hist s <> [].
  Lemma last_in (l : list N) d : l <> [] -> In (last l d) l.
  Proof. clear. induction l as [|a [|b l] IH]; intros H; [congruence|left; reflexivity|]. right. apply IH. discriminate. Qed.
  Lemma shard_torn : exists pos, (forall o, closing z o (o, Some pos)) /\ keeps 0 log pos /\
    reads_err pos (new_posts (p_head p0)) (content_of hist s) /\ exists e, shard_append (iix_bytes (x_ind y)) pos = Err e.
  Proof.
    pose proof J as (I1 & I2 & I3 & I4 & I5). destruct (I5 s p0 Ep) as (_ & Hh & Hc & _ & _).
    assert (Y : young D y).
    { intros i p Ei. left. split.
      - unfold flushed in Fl. rewrite Forall_forall in Fl. apply Fl. eapply nth_error_In, Ei.
      - destruct (I5 i p Ei) as (_ & _ & _ & -> & _). specialize (HT i ltac:(rewrite <- I1; eapply nth_len, Ei)). unfold u32. rewrite N.mod_small by lia. exact HT. }
    assert (T : touched s z).
    { apply (batch_touches D more y s p0 HM Y Ep); [|exact HP]. rewrite Hc. intros X. apply HD. rewrite <- X. apply last_in, HN. }
    destruct (serve_batch_inv more y log hist J B) as [L1 K].
    destruct (link_cut z L1 _ s K Ls T) as (L & ds & KL & Hs & Ld & Hin & W).
    { rewrite HC, app_length. cbn [length]. destruct (content_of hist s); [congruence|]. cbn [length]. lia. }
    { rewrite HC. destruct (content_of hist s); discriminate. }
    pose proof KL as (M1 & M2 & M3 & _).
    assert (SzL : (Z.of_nat (log_size L) < 9223372036854775808)%Z) by (apply (shard_file_size _ _ _ KL); intros i; apply B).
    pose proof (serve_batch_grown log more y (inv_grown _ _ _ J)) as G. destruct (flush_ind_grown log s 0 z G) as [G1 _].
    set (pos := firstn (log_size L) (render 0 (L ++ [(s, ds)]))) in *.
    assert (Hd0 : p_head p0 <> (-1)%Z).
    { rewrite Hh. destruct (I5 s p0 Ep) as (_ & _ & _ & _ & _ & pend & H6 & _ & _ & H9).
      assert (p_posts p0 = []) as Hp by (unfold flushed in Fl; rewrite Forall_forall in Fl; apply Fl; eapply nth_error_In, Ep).
      assert (pend = []) as ->.
      { rewrite H6 in Hp. pose proof (payload_length_ge pend) as Lp. rewrite Hp in Lp. destruct pend; [reflexivity|cbn [length] in Lp; lia]. }
      rewrite PosterP.next_off_none. intros Hout. apply HN. rewrite <- H9, chunks_none by exact Hout. reflexivity. }
    assert (Eh : p_head p0 = next_off s 0 L) by (destruct (old_heads y log _ L _ _ s p0 J G1 KL Ep) as [E|E]; [contradiction|exact E]).
    assert (Hlast : sums 0 (concat (chunks s L)) = content_of hist s).
    { rewrite HC, sums_app in Hs. destruct ds as [|d [|? ?]]; try discriminate Ld. cbn [sums] in Hs.
      apply app_inj_tail in Hs. apply Hs. }
    exists pos. split; [intros o; apply closing_flush; exact W|]. split; [|split].
    - eapply cut_keeps; [exact W| |apply grown_keeps, G]. apply flush_ind_grown, G.
    - rewrite Eh, <- Hlast. unfold new_posts.
      pose proof (cut_reads L [(s, ds)] pos (or_intror (ex_intro _ _ eq_refl)) M3 SzL eq_refl s (or_introl eq_refl) L [] 0%nat 0 [] eq_refl eq_refl) as R.
      cbn [log_size] in R. rewrite next_off_app in R by exact Hin. exact R.
    - rewrite (append_read y log _ _ J Sz).
      destruct (cut_links_err L [(s, ds)] pos (or_intror (ex_intro _ _ eq_refl)) M3 SzL eq_refl s (map reread (x_ind y)) (or_introl eq_refl) 0) as [e ->].
      + intros j p E. eapply (reread_heads y log _ L _ _ J G1 KL), E.
      + lia.
      + exists (reread p0). rewrite Nat.sub_0_r, nth_error_map, Ep. split; [reflexivity|exact Hd0].
      + cbn [bind]. eauto.
  Qed.
End Shard.

(** * Files *)
Lemma at_choose j y pos xs : forall old, length old = length xs -> nth_error xs j = Some y -> (forall o, closing y o (o, Some pos)) ->
  exists new, shards_at closing xs old new /\ length new = length xs /\
    forall i o x, nth_error old i = Some o -> nth_error xs i = Some x -> nth_error new i = Some (fst o, Some (if (i =? j)%nat then pos else x_file x)).
Proof.
  revert j. induction xs as [|x xs IH]; intros [|j] [|o old] L Ey C; try discriminate; cbn [nth_error] in Ey; cbn [length] in L.
  - injection Ey as ->. assert (X : forall old, length old = length xs -> exists new, shards_at closing xs old new /\ length new = length xs /\
      forall i o x, nth_error old i = Some o -> nth_error xs i = Some x -> nth_error new i = Some (fst o, Some (x_file x))).
    { clear. induction xs as [|x xs IH]; intros [|o old] L; try discriminate; cbn [length] in L.
      - exists []. split; [exact I|]. split; [reflexivity|]. intros [|i]; discriminate.
      - destruct (IH old ltac:(lia)) as (new & A & B & E). exists ((fst o, Some (x_file x)) :: new). cbn [shards_at length]. split; [|split].
        + split; [|exact A]. apply closing_flush, cut_here.
        + lia.
        + intros [|i] o' x' E1 E2; cbn [nth_error] in *; [congruence|eauto]. }
    destruct (X old ltac:(lia)) as (new & A & B & E). exists ((fst o, Some pos) :: new). cbn [shards_at length]. split; [split; [apply C|exact A]|]. split; [lia|].
    intros [|i] o' x' E1 E2; cbn [nth_error Nat.eqb] in *; [congruence|eauto].
  - destruct (IH j old ltac:(lia) Ey C) as (new & A & B & E). exists ((fst o, Some (x_file x)) :: new). cbn [shards_at length]. split; [|split].
    + split; [|exact A]. apply closing_flush, cut_here.
    + lia.
    + intros [|i] o' x' E1 E2; cbn [nth_error Nat.eqb] in *; [congruence|eauto].
Qed.
Lemma for_files_err_at {A} (f : bytes -> bytes -> result A) files : forall n j, length files = n -> (j < n)%nat ->
  (forall i fl, nth_error files i = Some fl -> exists iix pos, fl = (Some iix, Some pos) /\ (i <> j -> exists x, f iix pos = Ok x) /\ (i = j -> exists e, f iix pos = Err e)) ->
  exists e, for_files f n files = Err e.
Proof.
  induction files as [|fl files IH]; intros n j L Lj H; cbn [length] in L; [lia|]. subst n. cbn [for_files].
  destruct (H 0%nat fl eq_refl) as (iix & pos & -> & H1 & H2). destruct j as [|j].
  - destruct (H2 eq_refl) as [e ->]. cbn [bind]. eauto.
  - destruct (H1 ltac:(lia)) as [x ->]. cbn [bind]. destruct (IH (length files) j eq_refl ltac:(lia)) as [e ->]; [|cbn [bind]; eauto].
    intros i fl Ei. destruct (H (S i) fl Ei) as (a & b & E & H3 & H4). exists a, b. split; [exact E|]. split; intros; [apply H3|apply H4]; lia.
Qed.
Lemma heads_of sorted y log hist pos si : shard_inv y log (content_of hist) -> (Z.of_nat (log_size log) < 9223372036854775808)%Z ->
  shard_open sorted (iix_bytes (x_ind y)) pos = Ok si -> forall s p, nth_error (x_ind y) s = Some p -> nth s (si_heads si) (-1)%Z = p_head p.
Proof.
  intros J Sz E s p Ep. destruct (open_heads sorted _ _ _ E) as (t & T & ->). unfold table_of in T. cbn [fst] in T. rewrite (closed_table y log hist J Sz) in T.
  assert (t = map (fun p => (p_head p, p_total p)) (x_ind y)) as -> by congruence. rewrite map_map. cbn [fst]. apply (nth_map_error _ _ _ _ _ Ep).
Qed.
Lemma serve_slot_mod p : serve_slot p = post_blot p mod 65536.
Proof. unfold serve_slot. apply land_ffff. Qed.

Section A.
  Variables (u : unicode) (c : config) (k m n : nat).
  Hypothesis F : cfg_full c k m n.
  Hypothesis V : cfg_values c.
  Let O : cfg_ok c k m n := cu_ok _ _ _ _ F.
  Let Hn : N.of_nat n < 65536 := cu_n _ _ _ _ F.
  Let Hfl : (1 <= cf_flush c)%Z := cu_flush _ _ _ _ F.

  Theorem append_torn ss dk p wss ws blot : history u c ss dk -> docs_fit (all_docs ss ++ [p]) -> (0 < cf_numshatters c)%Z ->
    words_of (word_char u) (all_docs ss) wss -> words_of (word_char u) [p] [ws] ->
    carriers (word_hash u) k m n 0 wss (blot mod (N.of_nat n * 65536)) <> [] -> has_blot (word_hash u) k m n ws (blot mod (N.of_nat n * 65536)) = true ->
    exists fs, append_stopped u dk [p] fs /\ forall dirs, dirs (cf_root c) = fs ->
      (exists e, open_indexer_files dirs (cf_root c) = Err e) /\
      forall sorted, sorts sorted ->
        (exists ix, open_files sorted dirs (cf_root c) = Ok ix /\
          forall grow fuel, (length (all_docs ss) < fuel)%nat -> query_get grow ix fuel blot None = Err EOther) /\
        (forall ix, open_index sorted dk = Ok ix ->
          forall grow fuel, (length (all_docs ss) < fuel)%nat -> query_get grow (live ix fs) fuel blot None = Err EOther).
  Proof.
    intros Hi Fit Hsh W0 W1 Hc Hb. set (docs0 := all_docs ss) in *. assert (Fit0 : docs_fit docs0) by (eapply fit_app, Fit).
    destruct (history_inv u c k m n O Hn Hfl ss dk Hi Fit0 wss W0) as (fn0 & fs0 & D). fold docs0 in D.
    pose proof (df_len _ Fit0) as L0. pose proof (df_len _ Fit) as L1. change (2 ^ 32) with 4294967296 in L0, L1.
    destruct (open_start u c k m n O Hn Hfl _ _ _ _ _ D ltac:(lia)) as (x & wk & E & I).
    destruct (session_inv u c k m n O Hn _ x wk _ _ _ [p] [ws] E I Fit W0 W1) as (A & _ & (fn & dm & Ed) & La).
    pose proof (xi_cfg _ _ _ _ _ _ _ _ _ _ I) as Xc.
    destruct (completes u c k m n wk (nlen docs0) (requests [p]) (x_shards x) O) as (st & St & Fi); auto.
    { change (2 ^ 32) with 4294967296. clear - Hn. lia. } { apply (xi_ws _ _ _ _ _ _ _ _ _ _ I). }
    { change (2 ^ 32) with 4294967296. unfold requests, nlen in *. rewrite map_length. rewrite app_length in L1. clear - L1. lia. }
    { apply (xi_shards _ _ _ _ _ _ _ _ _ _ I). }
    destruct Fi as (_ & Em & _). pose proof St as St0. rewrite <- La, <- Xc in St.
    pose proof (Session u _ _ _ _ _ _ _ _ _ E Ed St Em) as Ss. destruct (A _ Ss) as (fn' & fs' & D1). clear A.
    pose proof (di_shards _ _ _ _ _ _ _ _ _ _ D1) as Lsv. cbn [k_shards] in Lsv. rewrite map_length in Lsv.
    (* what each shard holds *)
    destruct (cfg_nat _ _ _ _ O) as (En & Es & Hk & Hm & Hn0).
    destruct (start_workers_good u c k m n wk O (xi_ws _ _ _ _ _ _ _ _ _ _ I)) as (Gw & Lw).
    assert (Hl' : nlen docs0 + nlen (requests [p]) < 4294967295) by (unfold nlen in *; rewrite app_length in L1; unfold requests; rewrite map_length; cbn [length] in *; lia).
    pose proof (words_of_len _ _ _ W0) as Lw0.
    assert (Small : small (word_hash u) k m (wss ++ [ws])) by (apply Forall_app; split; [eapply words_of_small, W0|eapply words_of_small, W1]).
    unfold session_steps, session_start in St0. rewrite En, Es in St0.
    destruct (run_complete serve_post u k m n Hk Hm Hn0 ltac:(lia) (requests [p]) [ws] (nlen docs0) wk (x_shards x) Gw (xi_shards _ _ _ _ _ _ _ _ _ _ I) Hl'
      (words_of_requests _ _ _ W1) st _ St0 Em) as (_ & Y). clear St0.
    set (hist := fun j => posts_for (word_hash u) k m n j 0 wss). set (more := fun j => posts_for (word_hash u) k m n j (nlen docs0) [ws]).
    set (xs := map v_shard (s_servers st)) in *.
    assert (Bd : forall j, (j < n)%nat -> bounded (hist j ++ more j)).
    { intros j Lj. assert (B : bounded (posts_for (word_hash u) k m n j 0 (wss ++ [ws]))) by (apply posts_bounded; auto; unfold nlen in *; rewrite app_length in *; cbn [length] in *; lia).
      rewrite posts_for_app in B. replace (0 + nlen wss) with (nlen docs0) in B by (unfold nlen; lia). exact B. }
    assert (Sh : forall j, (j < n)%nat -> exists y log, shard_inv y log (content_of (hist j)) /\ flushed y /\ (Z.of_nat (log_size log) < 9223372036854775808)%Z /\
      nth_error (k_shards dk) j = Some (iix_bytes (x_ind y), x_file y) /\ nth_error xs j = Some (serve_batch y (more j))).
    { intros j Lj. destruct (nth_ex (k_shards dk) j) as [f0 E0]; [rewrite (di_shards _ _ _ _ _ _ _ _ _ _ D); exact Lj|].
      destruct (di_closed _ _ _ _ _ _ _ _ _ _ D j _ E0) as (y & log & J & Fl & Sz & Ef). exists y, log. split; [exact J|]. split; [exact Fl|]. split; [exact Sz|]. split; [congruence|].
      destruct (nth_ex (x_shards x) j) as [s0 Es0]; [rewrite (xi_shards _ _ _ _ _ _ _ _ _ _ I); exact Lj|].
      assert (s0 = y) as ->.
      { destruct (open_indexer_parts c k m n F dk x wk E (di_cfg _ _ _ _ _ _ _ _ _ _ D)) as (_ & _ & X4). destruct (for_shards_nth _ _ _ _ X4) as [_ Nx].
        destruct (Nx j s0 Es0) as (i4 & p4 & E4 & E5). rewrite E0 in E4. rewrite Ef in E4. injection E4 as <- <-.
        rewrite (shard_append_spec y log _ J Fl Sz) in E5. congruence. }
      destruct (nth_ex xs j) as [v Ev]; [rewrite Lsv; exact Lj|]. unfold xs in Ev |- *. rewrite nth_error_map in Ev |- *.
      destruct (nth_error (s_servers st) j) as [sv|] eqn:Esv; [|discriminate]. cbn [option_map]. rewrite (Y j sv y Esv Es0). reflexivity. }
    (* the shard of the blot *)
    pose proof (shard_small c k m n F blot) as Lj. pose proof (slot_small n blot) as Ls.
    set (j := QueryP.shard_of n blot) in *. set (s := QueryP.slot_of n blot) in *.
    destruct (Sh j Lj) as (y & log & J & Fl & Sz & Eo & Ey).
    pose proof J as (I1 & _). destruct (nth_ex (x_ind y) s) as [p0 Ep0]; [rewrite I1; exact Ls|].
    assert (Ww1 : words_of (word_char u) (docs0 ++ [p]) (wss ++ [ws])) by (apply Forall2_app; assumption).
    set (q := blot mod (N.of_nat n * 65536)) in *.
    assert (Eq : N.of_nat s * N.of_nat n + N.of_nat j = q) by (unfold q, s, j; apply blot_slot; exact Hn0).
    assert (Hh : forall i sl, (i < n)%nat -> (sl < num_slots)%nat -> content_of (hist i) sl = carriers (word_hash u) k m n 0 wss (N.of_nat sl * N.of_nat n + N.of_nat i))
      by (intros i sl Li Lsl; apply (content_held u c k m n F docs0 wss i sl Fit0 W0 Li Lsl)).
    assert (Hh1 : content_of (hist j ++ more j) s = carriers (word_hash u) k m n 0 (wss ++ [ws]) q).
    { rewrite <- Eq, <- (content_held u c k m n F _ _ j s Fit Ww1 Lj Ls). unfold hist, more. rewrite posts_for_app. replace (0 + nlen wss) with (nlen docs0) by (unfold nlen; lia). reflexivity. }
    rewrite carriers_app in Hh1. cbn [carriers] in Hh1. rewrite Hb, app_nil_r in Hh1. rewrite <- Eq in Hh1 at 1. rewrite <- (Hh j s Lj Ls) in Hh1.
    assert (EN : 0 + nlen wss + 1 = nlen docs0 + 1) by (unfold nlen; lia). rewrite EN in Hh1.
    assert (Hc0 : content_of (hist j) s <> []) by (rewrite (Hh j s Lj Ls), Eq; exact Hc).
    assert (Hmore : more j = map (post_make (nlen docs0 + 1)) (shard_part (N.of_nat n) (N.of_nat j) (spec_blots (word_hash u) k m ws))) by (unfold more; cbn [posts_for]; apply app_nil_r).
    destruct (shard_torn y log (hist j) (more j) J Fl Sz (Bd j Lj) s p0 (nlen docs0 + 1)) as (pos & Cl & Kp & Rd & Ea).
    { exact Ls. } { exact Ep0. }
    { rewrite Hmore. apply Forall_forall. intros po Hpo. apply in_map_iff in Hpo. destruct Hpo as (b & <- & Hb0).
      apply post_docid_make; [unfold nlen in *; lia|]. unfold shard_part in Hb0. apply in_map_iff in Hb0. destruct Hb0 as (b1 & <- & Hb1). apply filter_In in Hb1. destruct Hb1 as [Hb1 _].
      unfold small in Small. rewrite Forall_forall in Small. assert (Iw : In ws (wss ++ [ws])) by (apply in_or_app; right; left; reflexivity). specialize (Small ws Iw). rewrite Forall_forall in Small. specialize (Small b1 Hb1).
      cbv beta in Small. eapply N.le_lt_trans; [|exact Small]. apply N.div_le_upper_bound; [clear - Hn0; lia|]. clear - Hn0. nia. }
    { assert (X : posted s (more j) <> []).
      { intros X. unfold content_of in Hh1 at 1. rewrite posted_app, X, app_nil_r in Hh1. unfold content_of in Hh1. apply (f_equal (@length N)) in Hh1. rewrite app_length in Hh1. cbn [length] in Hh1. clear - Hh1. lia. }
      unfold posted in X. destruct (filter _ (more j)) as [|po l] eqn:Ef; [contradiction|]. assert (Hpo : In po (filter (fun p => post_blot p mod 65536 =? N.of_nat s) (more j))) by (rewrite Ef; left; reflexivity).
      apply filter_In in Hpo. destruct Hpo as [H1 H2]. exists po. split; [exact H1|]. rewrite serve_slot_mod. apply N.eqb_eq in H2. rewrite H2. apply Nat2N.id. }
    { rewrite (Hh j s Lj Ls). intros X. apply SessionP.carriers_in in X. unfold nlen in *. clear - X Lw0. lia. }
    { clear. unfold nlen. lia. }
    { exact Hh1. }
    { intros i Li. rewrite (Hh j i Lj Li). pose proof (carriers_len (word_hash u) k m n (N.of_nat i * N.of_nat n + N.of_nat j) wss 0) as X. unfold nlen in *. clear - X Lw0 Hl'. lia. }
    { exact Hc0. }
    (* the files *)
    assert (Wl : length (w_shards (files_of dk)) = length xs).
    { unfold files_of. cbn [w_shards]. rewrite map_length, (di_shards _ _ _ _ _ _ _ _ _ _ D). symmetry. exact Lsv. }
    assert (Wc : w_cfg (files_of dk) = Some (config_write None c)).
    { unfold files_of. cbn [w_cfg]. rewrite (di_cfg _ _ _ _ _ _ _ _ _ _ D). reflexivity. }
    destruct (at_choose j (serve_batch y (more j)) pos xs (w_shards (files_of dk)) Wl Ey Cl) as (sh & At & Lsh & Nsh).
    assert (Fsh : forall i, (i < n)%nat -> exists y log, shard_inv y log (content_of (hist i)) /\ flushed y /\ (Z.of_nat (log_size log) < 9223372036854775808)%Z /\
      nth_error (k_shards dk) i = Some (iix_bytes (x_ind y), x_file y) /\
      nth_error sh i = Some (Some (iix_bytes (x_ind y)), Some (if (i =? j)%nat then pos else x_file (serve_batch y (more i))))).
    { intros i Li. destruct (Sh i Li) as (y' & log' & J' & Fl' & Sz' & Eo' & Ey'). exists y', log'. repeat (split; [assumption|]).
      rewrite (Nsh i (Some (iix_bytes (x_ind y')), Some (x_file y')) (serve_batch y' (more i))); [reflexivity| |exact Ey'].
      unfold files_of. cbn [w_shards]. rewrite nth_error_map, Eo'. reflexivity. }
    assert (Fj : nth_error sh j = Some (Some (iix_bytes (x_ind y)), Some pos)).
    { rewrite (Nsh j (Some (iix_bytes (x_ind y)), Some (x_file y)) (serve_batch y (more j))); [rewrite Nat.eqb_refl; reflexivity| |exact Ey].
      unfold files_of. cbn [w_shards]. rewrite nth_error_map, Eo. reflexivity. }
    assert (Up : forall i y', (i < n)%nat -> nth_error (k_shards dk) i = Some (iix_bytes (x_ind y'), x_file y') -> i = j -> iix_bytes (x_ind y') = iix_bytes (x_ind y)) by (intros; subst i; congruence).
    set (fs := MkFiles (Some (config_write (w_cfg (files_of dk)) (x_cfg x))) (adder_close dm) (Some (fn_write fn)) sh).
    assert (St1 : append_stopped u dk [p] fs).
    { eapply append_later; [exact E|]. eapply stopped_closing; [exact St|exact Em|exact Ed|]. unfold fs. apply close_shards. exact At. }
    assert (Ecf : w_cfg fs = Some (config_write None c)) by (unfold fs; cbn [w_cfg]; rewrite Wc, Xc, config_same; reflexivity).
    assert (Ln : length sh = n) by (rewrite Lsh; exact Lsv).
    assert (Lids : (length (content_of (hist j) s) <= length docs0)%nat).
    { rewrite (Hh j s Lj Ls), <- Lw0. apply carriers_len. }
    exists fs. split; [exact St1|]. intros dirs Edr. split.
    - (* appending *)
      assert (Ef : exists e, for_files shard_append n sh = Err e).
      { apply (for_files_err_at shard_append sh n j Ln Lj). intros i fl Ei.
        assert (Li : (i < n)%nat) by (rewrite <- Ln; eapply nth_len, Ei).
        destruct (Fsh i Li) as (y' & log' & J' & Fl' & Sz' & Eo' & Ei'). rewrite Ei' in Ei. injection Ei as <-. eexists _, _. split; [reflexivity|]. split.
        - intros Ne. apply Nat.eqb_neq in Ne. rewrite Ne. exact (shard_between y' log' (hist i) (more i) J' Sz' (Bd i Li)).
        - intros Eij. rewrite (Up i y' Li Eo' Eij). apply Nat.eqb_eq in Eij. rewrite Eij. exact Ea. }
      unfold open_indexer_files. rewrite Edr, Ecf, (cfg_back c k m n F V). cbn [bind]. rewrite Edr.
      assert (Ns : (cf_numshards c <? 0)%Z = false) by (rewrite (co_shards _ _ _ _ O); clear; lia). rewrite Ns, (co_shards _ _ _ _ O), Nat2Z.id.
      assert (Ead : exists a, new_adder (w_dmd fs) (cf_flush c) = Ok a).
      { unfold new_adder. assert ((cf_flush c <? 1)%Z = false) as -> by (clear - Hfl; lia). assert ((cf_flush c <? 0)%Z = false) as -> by (clear - Hfl; lia).
        destruct (w_dmd fs); [destruct (_ =? 0)|]; eauto. }
      destruct Ead as [a ->]. cbn [bind]. unfold fs. cbn [w_fnames w_shards read_some].
      pose proof (di_fnames _ _ _ _ _ _ _ _ _ _ D1) as E1. cbn [k_fnames] in E1. assert (Efn : fn_write fn = fn_write fn') by congruence. rewrite Efn.
      destruct (reload_spec fn' (di_wf _ _ _ _ _ _ _ _ _ _ D1)) as (e1 & Ee1 & _). rewrite Ee1. cbn [bind]. rewrite (token_ok c k m n O). cbn [bind].
      destruct Ef as [e ->]. exists e. reflexivity.
    - intros sorted Hs.
      destruct (open_index_ok u c k m n O Hn sorted Hs _ wss fn0 fs0 dk D W0 Fit0) as (ix0 & E0 & I0 & _).
      destruct (open_index_ok u c k m n O Hn sorted Hs _ _ fn' fs' _ D1 Ww1 Fit) as (ix1 & E1 & II1 & _).
      destruct (open_index_parts c k m n F sorted dk ix0 E0 (di_cfg _ _ _ _ _ _ _ _ _ _ D)) as [P1 P2].
      destruct (open_index_parts c k m n F sorted _ ix1 E1 (di_cfg _ _ _ _ _ _ _ _ _ _ D1)) as [Q1 Q2]. cbn [k_dmd k_fnames read_some] in Q1, Q2.
      assert (Op : forall i iix fp, nth_error sh i = Some (Some iix, Some fp) -> exists si, shard_open sorted iix fp = Ok si /\ si_file si = fp).
      { intros i iix fp Ei. assert (Li : (i < n)%nat) by (rewrite <- Ln; eapply nth_len, Ei).
        destruct (Fsh i Li) as (y' & log' & J' & Fl' & Sz' & Eo' & Ei'). rewrite Ei' in Ei. injection Ei as <- <-.
        destruct (Nat.eqb_spec i j) as [Eij|Ne].
        - rewrite (Up i y' Li Eo' Eij). destruct (open_keeps sorted y log (hist j) pos J Fl Sz Kp) as (si & A & B & _). eauto.
        - destruct (open_keeps sorted y' log' (hist i) (x_file (serve_batch y' (more i))) J' Fl' Sz') as (si & A & B & _); [|eauto].
          apply grown_keeps, serve_batch_grown. eapply inv_grown, J'. }
      destruct (Op j _ _ Fj) as (sj & Osj & Fsj).
      assert (Rj : reads_err (si_file sj) (new_posts (nth s (si_heads sj) (-1)%Z)) (content_of (hist j) s)).
      { rewrite Fsj, (heads_of sorted y log (hist j) pos sj J Sz Osj s p0 Ep0). exact Rd. }
      split.
      + destruct (for_files_spec (shard_open sorted) (fun i si => i = j -> si = sj) sh 0 n Ln) as (ys & Ey1 & Ly & Ny).
        { intros i fl Ei. assert (Li : (i < n)%nat) by (rewrite <- Ln; eapply nth_len, Ei). destruct (Fsh i Li) as (y' & log' & _ & _ & _ & _ & Ei').
          rewrite Ei' in Ei. injection Ei as <-. destruct (Op i _ _ Ei') as (si & A & _). eexists _, _, si. split; [reflexivity|]. split; [exact A|]. cbn [Nat.add].
          intros Eij. rewrite Eij, Fj in Ei'. assert (X : shard_open sorted (iix_bytes (x_ind y)) pos = Ok si) by (injection Ei' as -> ->; rewrite Eij in A; exact A). congruence. }
        exists (MkIndex c (ix_dmd ix1) (ix_fnames ix1) ys). split.
        * unfold open_files. rewrite Edr, Ecf, (cfg_back c k m n F V). cbn [bind]. rewrite Edr. unfold fs. cbn [w_dmd w_fnames w_shards]. rewrite Q1. cbn [read_some bind]. rewrite Q2. cbn [bind].
          assert (Ns : (cf_numshards c <? 0)%Z = false) by (rewrite (co_shards _ _ _ _ O); clear; lia). rewrite Ns, (co_shards _ _ _ _ O), Nat2Z.id, Ey1. reflexivity.
        * intros grow fuel Lf. destruct (nth_ex ys j) as [si Esi]; [rewrite Ly; exact Lj|]. rewrite (Ny j si Esi eq_refl) in Esi.
          assert (Eg : query_get grow (MkIndex c (ix_dmd ix1) (ix_fnames ix1) ys) fuel blot None =
            get_loop grow (MkIndex c (ix_dmd ix1) (ix_fnames ix1) ys) fuel false (si_file sj) (new_posts (nth s (si_heads sj) (-1)%Z)) None).
          { unfold query_get, get_address. cbn [ix_shards]. assert (u32 (nlen ys) = N.of_nat n) as -> by (unfold u32, nlen; rewrite Ly; apply N.mod_small; clear - Hn; lia).
            destruct (N.eqb_spec (N.of_nat n) 0) as [X|_]; [clear - X Hn0; lia|]. cbn [bind]. fold (QueryP.shard_of n blot). fold j. rewrite Esi. reflexivity. }
          rewrite Eg. apply (get_loop_err grow _ (place_of (docs0 ++ [p])) (si_file sj) (content_of (hist j) s)); [exact Rj|exact Logic.I|clear - Lids Lf; lia|].
          intros d Hd. rewrite (Hh j s Lj Ls) in Hd. change (docid2doc ix1 d = Ok (place_of (docs0 ++ [p]) d)).
          apply (io_place _ _ _ _ II1 j s d Lj Ls). rewrite carriers_app. apply in_or_app. left. exact Hd.
      + intros ix Eix. assert (ix = ix0) as -> by congruence. intros grow fuel Lf.
        destruct (live_get c k m n F ix0 fs blot grow fuel None (io_len _ _ _ _ I0)) as (si & Es1 & ->). cbn [is_nil negb]. fold j in Es1. fold s.
        destruct (nth_ex (ix_shards ix0) j) as [s0 Es0]; [rewrite (io_len _ _ _ _ I0); exact Lj|].
        change (w_shards fs) with sh in Es1. rewrite (live_nth _ _ j s0 _ Es0 Fj) in Es1. cbn [snd] in Es1. injection Es1 as <-. cbn [si_file si_heads].
        destruct (open_shard c k m n sorted F dk ix0 j s0 E0 (di_cfg _ _ _ _ _ _ _ _ _ _ D) Es0) as (iix & ps & Ej0 & Oj0).
        rewrite Eo in Ej0. injection Ej0 as <- <-.
        rewrite (heads_of sorted y log (hist j) _ s0 J Sz Oj0 s p0 Ep0).
        apply (get_loop_err grow _ (place_of docs0) pos (content_of (hist j) s)); [exact Rd|exact Logic.I|clear - Lids Lf; lia|].
        intros d Hd. rewrite (Hh j s Lj Ls) in Hd. pose proof (io_place _ _ _ _ I0 j s d Lj Ls Hd) as Pd.
        destruct (open_indexer_parts c k m n F dk x wk E (di_cfg _ _ _ _ _ _ _ _ _ _ D)) as (_ & X2 & _).
        assert (Lg : longer (ix_dmd ix0) (adder_close dm)).
        { apply longer_close. eapply longer_ids; [exact Ed|]. rewrite X2, P1. apply longer_refl. }
        destruct Lg as [e1 Lg]. unfold docid2doc in Pd |- *. unfold live, fs. cbn [ix_dmd ix_fnames w_dmd]. rewrite Lg.
        destruct (dmd_lookup (ix_dmd ix0) d) as [v| | |] eqn:El; try discriminate. rewrite (lookup_longer _ e1 _ _ El). exact Pd.
  Qed.
End A.
