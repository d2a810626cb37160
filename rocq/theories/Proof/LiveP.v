(** An index that is open for reading while others append. *)
From Verif Require Import Model.Base Model.Utf8 Model.Token Model.Blotter Model.Address Model.Post Model.Poster Model.Shatter Model.Shard Model.Dmd Model.Fnames Model.Conc Model.Config Model.Json Model.Run Model.Index Model.Query Model.Session Model.Crash Model.Live.
From Verif Require Import Spec.Text Spec.Fingerprint Spec.Configs Spec.Posting Spec.Postings Spec.Paths Spec.Reading Spec.Querying Spec.History Spec.Live.
From Verif Require Import Proof.Tactics Proof.VarintP Proof.TokenP Proof.BlotterP Proof.ShatterP Proof.IndexP2 Proof.DmdP Proof.FnamesP Proof.FnamesP2 Proof.PosterP Proof.ShardP Proof.ConcP Proof.ConcRun Proof.QueryP Proof.SessionP Proof.SessionP2 Proof.KeepP Proof.CrashP Proof.CrashP2 Proof.CrashP3.
Local Open Scope N_scope.

(** * Heads *)
Lemma next_off_in s log : forall base, next_off s base log <> (-1)%Z -> In s (map fst log).
Proof.
  induction log as [|[s' ds] r IH]; intros base E; cbn [next_off map fst In] in *; [congruence|].
  destruct (Nat.eqb_spec s' s) as [->|Ne]; [left; reflexivity|]. right. eapply IH, E.
Qed.
Lemma grown_head log0 x s p : grown log0 x -> nth_error (x_ind x) s = Some p -> next_off s 0 log0 <> (-1)%Z -> p_head p = next_off s 0 log0.
Proof.
  intros (extra & _ & H) E N0. destruct (H s p E) as (_ & -> & _). apply next_off_app. eapply next_off_in, N0.
Qed.
(** Slots that had a chunk have kept their first one. *)
Definition heads_kept (t0 t1 : list (Z * N)) : Prop :=
  forall s h c0, nth_error t0 s = Some (h, c0) -> h <> (-1)%Z -> exists c1, nth_error t1 s = Some (h, c1).
Lemma heads_kept_refl t : heads_kept t t.
Proof. intros s h c0 E _. eauto. Qed.
Lemma heads_kept_trans a b c : heads_kept a b -> heads_kept b c -> heads_kept a c.
Proof. intros H1 H2 s h c0 E N0. destruct (H1 s h c0 E N0) as [c1 E1]. eapply H2; eauto. Qed.
Definition table_of (f : bytes * bytes) (t : list (Z * N)) : Prop := read_table num_slots (fst f) = Ok t.
Lemma closed_table y log hist : shard_inv y log (content_of hist) -> (Z.of_nat (log_size log) < 9223372036854775808)%Z ->
  read_table num_slots (iix_bytes (x_ind y)) = Ok (map (fun p => (p_head p, p_total p)) (x_ind y)).
Proof.
  intros J Sz. pose proof (shard_inv_table_ok _ _ _ J Sz) as T. destruct J as (I1 & _).
  pose proof (read_table_spec (x_ind y) [] T) as R. rewrite app_nil_r, I1 in R. exact R.
Qed.
Lemma next_off_none s log : log_ok log -> concat (chunks s log) = [] -> forall base, next_off s base log = (-1)%Z.
Proof.
  induction log as [|[s' ds] r IH]; intros Ok_ E base; cbn [next_off]; [reflexivity|]. inversion Ok_ as [|? ? O1 O2]; subst.
  unfold chunks in E, IH. cbn [filter fst] in E. destruct (Nat.eqb_spec s' s) as [->|Ne]; [|apply IH; assumption].
  cbn [map concat] in E. destruct O1 as (Hne & _). cbn [snd] in *. apply app_eq_nil in E. destruct E as [E _]. contradiction.
Qed.
Lemma empty_head y log hist s p : shard_inv y log (content_of hist) -> flushed y -> nth_error (x_ind y) s = Some p -> content_of hist s = [] -> p_head p = (-1)%Z.
Proof.
  intros (I1 & I2 & I3 & I4 & I5) Hf E C. destruct (I5 s p E) as (_ & H2 & _ & _ & _ & pend & H6 & _ & _ & H9). rewrite H2.
  apply next_off_none; [exact I3|]. rewrite C in H9. destruct (concat (chunks s log)) as [|d l]; [reflexivity|]. discriminate H9.
Qed.
Lemma session_heads y log hist more : shard_inv y log (content_of hist) -> flushed y -> (Z.of_nat (log_size log) < 9223372036854775808)%Z ->
  bounded (hist ++ more) -> forall t0 t1, table_of (iix_bytes (x_ind y), x_file y) t0 -> table_of (shard_close (serve_batch y more)) t1 -> heads_kept t0 t1.
Proof.
  intros J Fl Sz B t0 t1 T0 T1. unfold table_of in *. cbn [fst] in T0. rewrite (closed_table y log hist J Sz) in T0.
  destruct (serve_batch_inv more y log hist J B) as [log1 J1]. destruct (flush_ind_spec _ _ _ J1) as (log2 & J2 & Fl2).
  assert (Sz2 : (Z.of_nat (log_size log2) < 9223372036854775808)%Z) by (apply (shard_file_size _ _ _ J2); intros s; apply B).
  unfold shard_close in T1. cbn [fst] in T1. rewrite (closed_table _ log2 _ J2 Sz2) in T1.
  assert (t0 = map (fun p => (p_head p, p_total p)) (x_ind y)) as -> by congruence.
  assert (t1 = map (fun p => (p_head p, p_total p)) (x_ind (flush_ind (serve_batch y more)))) as -> by congruence.
  assert (G : grown log (flush_ind (serve_batch y more))).
  { unfold flush_ind. apply flush_ind_grown. unfold serve_batch. pose proof (inv_grown log y _ J) as G0. revert G0. clear. revert y.
    induction more as [|p more IH]; intros y G; cbn [fold_left]; [exact G|]. apply IH, serve_grown, G. }
  intros s h c0 E N0. rewrite nth_error_map in E |- *. destruct (nth_error (x_ind y) s) as [p|] eqn:Ep; [|discriminate].
  cbn [option_map] in E. assert (h = p_head p) as -> by congruence.
  destruct J as (I1 & _ & _ & _ & I5). destruct (I5 s p Ep) as (_ & Hh & _). rewrite Hh in *.
  destruct J2 as (K1 & _). destruct (nth_ex (x_ind (flush_ind (serve_batch y more))) s) as [p2 E2]; [rewrite K1, <- I1; eapply nth_len, Ep|].
  rewrite E2. cbn [option_map]. rewrite (grown_head log _ s p2 G E2 N0). eauto.
Qed.

(** * Queries that meet an unknown path *)
Section Get.
  Variables (grow : nat -> nat) (ix : index) (place : N -> bytes * N * N).
  Lemma get_loop_panic f ids : forall fuel ps ds, reads f ps ids -> docs_wf ds -> (length ids < fuel)%nat ->
    (forall d, In d ids -> docid2doc ix d = Ok (place d) \/ docid2doc ix d = Panic) -> (exists d, In d ids /\ docid2doc ix d = Panic) ->
    get_loop grow ix fuel false f ps ds = Panic.
  Proof.
    induction ids as [|d ids IH]; intros [|fuel] ps ds R W L Pl (d0 & Hd & Ed); cbn [length] in L; try lia; [destruct Hd|].
    cbn [get_loop andb reads] in *. destruct R as (r' & -> & R).
    destruct (Pl d (or_introl eq_refl)) as [E|E]; rewrite E; cbn [bind]; [|reflexivity]. destruct (place d) as [[p a] b] eqn:Epl.
    destruct (put_doc_free grow ds p a b W) as (ds' & Ep & W' & _). rewrite Ep. cbn [bind]. apply IH; auto; [lia|intros; apply Pl; right; assumption|].
    exists d0. split; [|exact Ed]. destruct Hd as [->|Hd]; [congruence|exact Hd].
  Qed.
End Get.

(** * Places *)
Lemma reads_none f ids : reads f (new_posts (-1)) ids -> ids = [].
Proof.
  destruct ids as [|d ids]; [reflexivity|]. cbn [reads]. intros (r & E & _). unfold posts_next, new_posts in E.
  cbn [r_i r_docids r_nextpos length Nat.eqb] in E. change (-1 =? -1)%Z with true in E. discriminate.
Qed.
Lemma known_node docs p : known docs p <-> node_of docs (tree_path p).
Proof.
  unfold known, node_of. split.
  - intros (q & suf & H & E). right. eauto.
  - intros [E|(q & suf & H & E)]; [|eauto]. unfold tree_path in E. destruct (spec_abs _ _); discriminate.
Qed.
Lemma fn_abs_beyond d v : nlen d <= v -> fn_abs d v = Panic.
Proof.
  unfold nlen. intros L. unfold fn_abs. cbn [abs_walk]. assert (nth_error d (N.to_nat v) = None) as -> by (apply nth_error_None; lia). reflexivity.
Qed.
Lemma old_path fn0 fn1 i q : wf fn0 -> extends fn0 fn1 -> is_path fn1 i q -> i < nlen fn0 -> is_path fn0 i q.
Proof.
  intros W X P L. destruct (is_path_total fn0 W i L) as (cs & Hc & _). pose proof (extends_path _ _ _ _ X Hc) as Hc1.
  rewrite (is_path_fun _ _ _ P _ Hc1). exact Hc.
Qed.
Definition show (p : bytes * doc) : bytes * N * N := (show_abs (spec_abs (fst p) (d_path (snd p))), d_start (snd p), d_end (snd p)).
(** What the names of the opening make of a record written since. *)
Lemma place_seen fn0 fn1 docs0 f p : wf fn0 -> wf fn1 -> extends fn0 fn1 -> (forall q, node_of docs0 q <-> exists i, is_path fn0 i q) -> rec_of fn1 f p ->
  (known docs0 p -> fn_abs fn0 (f_fid f) = Ok (show_abs (spec_abs (fst p) (d_path (snd p))))) /\
  (~ known docs0 p -> fn_abs fn0 (f_fid f) = Panic).
Proof.
  intros W0 W1 X Nq (_ & _ & P). split; intros K.
  - apply known_node, Nq in K. destruct K as [i K]. rewrite tree_path_parts in K.
    assert (i = f_fid f) as -> by (eapply is_path_inj; [exact W1| |exact P]; eapply extends_path; eauto).
    rewrite (fn_abs_path fn0 _ _ W0 K), parts_show. reflexivity.
  - destruct (N.lt_ge_cases (f_fid f) (nlen fn0)) as [L|L]; [|apply fn_abs_beyond, L]. exfalso. apply K. apply known_node, Nq.
    exists (f_fid f). rewrite tree_path_parts. eapply old_path; eauto.
Qed.

Lemma known_dec docs p : known docs p \/ ~ known docs p.
Proof.
  destruct (in_dec (list_eq_dec (list_eq_dec N.eq_dec)) (tree_path p) (tree_nodes docs)) as [H|H]; rewrite in_tree_nodes, <- known_node in H; auto.
Qed.

Section A.
  Variables (u : unicode) (c : config) (k m n : nat).
  Hypothesis F : cfg_full c k m n.
  Let O : cfg_ok c k m n := cu_ok _ _ _ _ F.
  Let Hn : N.of_nat n < 65536 := cu_n _ _ _ _ F.
  Let Hfl : (1 <= cf_flush c)%Z := cu_flush _ _ _ _ F.
  Notation disk_inv := (disk_inv u c k m n).

  Lemma nodes_of docs wss fn fs dk : disk_inv docs wss fn fs dk -> forall q, node_of docs q <-> exists i, is_path fn i q.
  Proof.
    intros D q. split.
    - intros [->|(p & suf & Hp' & Es)]; [exists 0; constructor|].
      assert (X : exists i, is_path fn i (tree_path p)).
      { pose proof (di_recs _ _ _ _ _ _ _ _ _ _ D) as R. clear -R Hp'. induction R as [|f p' l l' (_ & _ & A) R IH]; [destruct Hp'|].
        destruct Hp' as [->|Hp']; [|auto]. rewrite tree_path_parts. eauto. }
      destruct X as [i Hi']. rewrite Es in Hi'. eapply is_path_app_inv, Hi'.
    - intros [i Hi']. eapply (di_nodes _ _ _ _ _ _ _ _ _ _ D), Hi'.
  Qed.
  (** The record of a document. *)
  Lemma record_of docs wss fn fs dk d p : disk_inv docs wss fn fs dk -> docs_fit docs -> 0 < d -> doc_at docs d p ->
    exists f, dmd_lookup (render_dmd (zero_fields :: fs)) d = Ok f /\ rec_of fn f p.
  Proof.
    intros D Fit Hd Ex. unfold doc_at in Ex. pose proof (recs_len _ _ _ (di_recs _ _ _ _ _ _ _ _ _ _ D)) as Lf. pose proof (nth_len _ _ _ Ex) as Lx.
    destruct (nth_ex fs (N.to_nat (d - 1))) as [f Ef]; [lia|]. exists f.
    assert (Rc : rec_of fn f p).
    { pose proof (di_recs _ _ _ _ _ _ _ _ _ _ D) as G. clear -Ex Ef G. revert Ex Ef. generalize (N.to_nat (d - 1)).
      induction G as [|a p0 l l' A F IH]; intros [|i] E1 E2; cbn [nth_error] in *; try discriminate; [|eauto].
      assert (a = f) as -> by congruence. assert (p0 = p) as -> by congruence. exact A. }
    assert (WF : Forall wf_fields fs).
    { pose proof (di_recs _ _ _ _ _ _ _ _ _ _ D) as G. pose proof (di_wf _ _ _ _ _ _ _ _ _ _ D) as W. pose proof (df_ok _ Fit) as FO.
      clear -G W FO. change (2 ^ 32) with 4294967296 in *. induction G as [|a p0 l l' (A & B & C) G IH]; [constructor|].
      inversion FO as [|? ? (O1 & O2 & O3) FO']; subst. change (2 ^ 32) with 4294967296 in *. constructor; [|auto]. split; [|split].
      - pose proof (is_path_lt fn _ _ W C). pose proof (wf_size fn W). lia.
      - rewrite A. exact O2.
      - rewrite B. exact O3. }
    split; [|exact Rc]. replace d with (N.of_nat (S (N.to_nat (d - 1)))) at 1 by lia. apply (dmd_lookup_file fs _ f WF Ef).
  Qed.

  (** * One session *)
  Lemma session_more docs0 wss0 fn0 fs0 dk docs wss dk' : disk_inv docs0 wss0 fn0 fs0 dk -> session u (open_indexer dk) docs dk' ->
    docs_fit (docs0 ++ docs) -> words_of (word_char u) docs0 wss0 -> words_of (word_char u) docs wss ->
    exists fn1 fs1, disk_inv (docs0 ++ docs) (wss0 ++ wss) fn1 fs1 dk' /\ extends fn0 fn1 /\
      forall j f0 f1 t0 t1, nth_error (k_shards dk) j = Some f0 -> nth_error (k_shards dk') j = Some f1 -> table_of f0 t0 -> table_of f1 t1 -> heads_kept t0 t1.
  Proof.
    intros D S Fit W0 W1. pose proof (df_len _ Fit) as FL. pose proof (df_room _ Fit) as FR. pose proof (df_ok _ Fit) as FO. apply Forall_app in FO. destruct FO as [_ FO].
    change (2 ^ 32) with 4294967296 in *. assert (L0 : nlen docs0 < 4294967295) by (unfold nlen in *; rewrite app_length in FL; lia).
    destruct (open_start u c k m n O Hn Hfl _ _ _ _ _ D L0) as (x & ws & Ex & I).
    destruct (session_inv u c k m n O Hn _ x ws _ _ _ docs wss Ex I Fit W0 W1) as (A & _ & _ & Last).
    destruct (A dk' S) as (fn1 & fs1 & D1). exists fn1, fs1. split; [exact D1|].
    inversion S as [x' ws' fn dm ids st i Es Ed Est Em Edk]. rewrite Ex in Es. injection Es as <- <-.
    assert (PR : forall a b, path_room (a ++ b) = path_room a + path_room b).
    { clear. induction a as [|p a IH]; intros b; cbn [app path_room]; [reflexivity|]. rewrite IH. lia. }
    rewrite PR in FR. pose proof (recs_len _ _ _ (xi_recs _ _ _ _ _ _ _ _ _ _ I)) as Lf. pose proof (xi_room _ _ _ _ _ _ _ _ _ _ I) as Rm.
    split.
    - destruct (doc_ids_spec docs (x_fnames x) (x_dmds x) (zero_fields :: fs0) (xi_wf _ _ _ _ _ _ _ _ _ _ I)) as (fn' & dm' & fs & E1 & W & X & _).
      { lia. } { exact FO. } { apply (xi_dmds _ _ _ _ _ _ _ _ _ _ I). } { unfold nlen in *. cbn [length]. rewrite app_length in FL. lia. }
      rewrite E1 in Ed. injection Ed as -> _ _.
      assert (S1 : skel fn = skel fn1).
      { pose proof (di_fnames _ _ _ _ _ _ _ _ _ _ D1) as Q. rewrite <- Edk in Q. cbn [k_fnames] in Q. assert (Q1 : fn_write fn = fn_write fn1) by congruence.
        destruct (reload_spec fn W) as (e1 & R1 & _ & S1). destruct (reload_spec fn1 (di_wf _ _ _ _ _ _ _ _ _ _ D1)) as (e2 & R2 & _ & S2). congruence. }
      assert (S0 : skel (x_fnames x) = skel fn0).
      { destruct (reload_spec fn0 (di_wf _ _ _ _ _ _ _ _ _ _ D)) as (e & R & _ & S0). rewrite <- S0. f_equal.
        unfold open_indexer, read_config in Ex. rewrite (di_cfg _ _ _ _ _ _ _ _ _ _ D), (check_ok c k m n O Hn) in Ex. cbn [bind] in Ex.
        destruct (_ <? 0)%Z; [discriminate|]. destruct (new_adder _ _); cbn [bind] in Ex; try discriminate.
        rewrite (di_fnames _ _ _ _ _ _ _ _ _ _ D) in Ex. cbn [read_some] in Ex. rewrite R in Ex. cbn [bind] in Ex.
        destruct (token_from_config _); cbn [bind] in Ex; try discriminate. destruct (for_shards _ _ _); cbn [bind] in Ex; try discriminate.
        destruct (start_workers _); cbn [bind] in Ex; try discriminate. injection Ex as <- _. reflexivity. }
      destruct X as [t Xt]. exists t. congruence.
    - cbn [k_shards]. intros j f0 f1 t0 t1 E0 E1 T0 T1.
      destruct (cfg_nat _ _ _ _ O) as (En & Es & Hk & Hm & Hn0).
      destruct (start_workers_good u c k m n ws O (xi_ws _ _ _ _ _ _ _ _ _ _ I)) as (Gw & Lw).
      assert (Lr : length (requests docs) = length docs) by apply map_length.
      assert (Hl' : nlen docs0 + nlen (requests docs) < 4294967295) by (unfold nlen in *; rewrite app_length in FL; lia).
      pose proof (words_of_len _ _ _ W0) as Lw0. pose proof (words_of_len _ _ _ W1) as Lw1.
      assert (Small : small (word_hash u) k m (wss0 ++ wss)).
      { apply Forall_app. split; [eapply words_of_small, W0|eapply words_of_small, W1]. }
      rewrite (xi_cfg _ _ _ _ _ _ _ _ _ _ I) in *. rewrite Last in Est. unfold session_steps, session_start in Est. rewrite En, Es in Est.
      destruct (run_complete serve_post u k m n Hk Hm Hn0 ltac:(lia) (requests docs) wss (nlen docs0) ws (x_shards x) Gw (xi_shards _ _ _ _ _ _ _ _ _ _ I) Hl'
        (words_of_requests _ _ _ W1) st i Est Em) as (_ & Y).
      rewrite !nth_error_map in E1. destruct (nth_error (s_servers st) j) as [v|] eqn:Ev; [|discriminate]. cbn [option_map] in E1.
      assert (f1 = shard_close (v_shard v)) as -> by congruence.
      assert (Lj : (j < n)%nat) by (rewrite <- (di_shards _ _ _ _ _ _ _ _ _ _ D); eapply nth_len, E0).
      destruct (nth_ex (x_shards x) j) as [s0 Es0]; [rewrite (xi_shards _ _ _ _ _ _ _ _ _ _ I); exact Lj|].
      rewrite (Y j v s0 Ev Es0) in T1.
      destruct (di_closed _ _ _ _ _ _ _ _ _ _ D j _ E0) as (y & log & J & Fl & Sz & Ef).
      assert (s0 = y) as ->.
      { destruct (open_indexer_parts c k m n F dk x ws Ex (di_cfg _ _ _ _ _ _ _ _ _ _ D)) as (_ & _ & X3). destruct (for_shards_nth _ _ _ _ X3) as [_ Nx].
        destruct (Nx j s0 Es0) as (i2 & p2 & E2 & E3). rewrite E0 in E2. rewrite Ef in E2. injection E2 as <- <-.
        rewrite (shard_append_spec y log _ J Fl Sz) in E3. congruence. }
      rewrite Ef in T0. eapply (session_heads y log _ _ J Fl Sz); [|exact T0|exact T1].
      assert (B : bounded (posts_for (word_hash u) k m n j 0 (wss0 ++ wss))) by (apply posts_bounded; auto; unfold nlen in *; rewrite app_length in *; lia).
      rewrite posts_for_app in B. replace (0 + nlen wss0) with (nlen docs0) in B by (unfold nlen; lia). exact B.
  Qed.

  (** * Any number of sessions *)
  Lemma all_docs_app a b : all_docs (a ++ b) = all_docs b ++ all_docs a.
  Proof. unfold all_docs. rewrite rev_app_distr, concat_app. reflexivity. Qed.
  Lemma words_split docs0 docs w : words_of (word_char u) (docs0 ++ docs) w -> exists w0 w1, w = w0 ++ w1 /\ words_of (word_char u) docs0 w0 /\ words_of (word_char u) docs w1.
  Proof. clear. intros W. apply Forall2_app_inv_l in W. destruct W as (w0 & w1 & A & B & ->). eauto. Qed.
  Lemma table_some docs wss fn fs dk j f : disk_inv docs wss fn fs dk -> nth_error (k_shards dk) j = Some f -> exists t, table_of f t.
  Proof.
    intros D E. destruct (di_closed _ _ _ _ _ _ _ _ _ _ D j _ E) as (y & log & J & _ & Sz & ->). eexists. exact (closed_table y log _ J Sz).
  Qed.
  Lemma since_inv docs0 wss0 fn0 fs0 dk news dk' : disk_inv docs0 wss0 fn0 fs0 dk -> since u dk news dk' -> words_of (word_char u) docs0 wss0 ->
    forall wss, docs_fit (docs0 ++ all_docs news) -> words_of (word_char u) (all_docs news) wss ->
    exists fn1 fs1, disk_inv (docs0 ++ all_docs news) (wss0 ++ wss) fn1 fs1 dk' /\ extends fn0 fn1 /\
      forall j f0 f1 t0 t1, nth_error (k_shards dk) j = Some f0 -> nth_error (k_shards dk') j = Some f1 -> table_of f0 t0 -> table_of f1 t1 -> heads_kept t0 t1.
  Proof.
    intros D S W0. induction S as [|news dk1 docs dk2 S IH S1]; intros wss Fit Ww.
    - change (all_docs []) with (@nil (bytes * doc)) in *. inversion Ww; subst. rewrite !app_nil_r in *. exists fn0, fs0. split; [exact D|]. split; [apply extends_refl|].
      intros j f0 f1 t0 t1 E0 E1 T0 T1. assert (f1 = f0) as -> by congruence. unfold table_of in *. assert (t1 = t0) as -> by congruence. apply heads_kept_refl.
    - rewrite all_docs_cons in *. destruct (words_split _ _ _ Ww) as (w1 & w2 & -> & W1 & W2). rewrite app_assoc in *.
      destruct (IH w1 (fit_app _ _ Fit) W1) as (fn1 & fs1 & D1 & X1 & H1).
      destruct (session_more _ _ _ _ _ docs w2 dk2 D1 S1 Fit) as (fn2 & fs2 & D2 & X2 & H2); [apply Forall2_app; assumption|exact W2|].
      exists fn2, fs2. split; [rewrite app_assoc; exact D2|]. split; [eapply extends_trans; eauto|].
      intros j f0 f2 t0 t2 E0 E2 T0 T2. destruct (nth_ex (k_shards dk1) j) as [f1 E1].
      { rewrite (di_shards _ _ _ _ _ _ _ _ _ _ D1), <- (di_shards _ _ _ _ _ _ _ _ _ _ D). eapply nth_len, E0. }
      destruct (table_some _ _ _ _ _ _ _ D1 E1) as [t1 T1]. eapply heads_kept_trans; eauto.
  Qed.
  Lemma since_exists ss dk docs : history u c ss dk -> docs_fit (all_docs ss ++ docs) -> (0 < cf_numshatters c)%Z -> exists dk', since u dk [docs] dk'.
  Proof.
    intros Hi Fit Hsh. assert (Fit0 : docs_fit (all_docs ss)) by (eapply fit_app, Fit).
    destruct (words_total u (all_docs ss)) as [w0 W0]. destruct (words_total u docs) as [w1 W1].
    destruct (history_inv u c k m n O Hn Hfl ss dk Hi Fit0 w0 W0) as (fn0 & fs0 & D).
    pose proof (df_len _ Fit0) as L0. change (2 ^ 32) with 4294967296 in L0.
    destruct (open_start u c k m n O Hn Hfl _ _ _ _ _ D ltac:(lia)) as (x & ws & E & I).
    destruct (session_inv u c k m n O Hn _ x ws _ _ _ docs w1 E I Fit W0 W1) as (_ & A & _). destruct (A Hsh) as [dk' S].
    exists dk'. econstructor; [constructor|exact S].
  Qed.
  Lemma since_history ss dk news dk' : history u c ss dk -> since u dk news dk' -> history u c (news ++ ss) dk'.
  Proof. clear. intros H S. induction S; cbn [app]; [exact H|]. econstructor; eauto. Qed.
End A.

(** * The open index *)
Lemma live_nth xs : forall files j si p, nth_error xs j = Some si -> nth_error files j = Some p ->
  nth_error (live_shards xs files) j = Some (match snd p with Some pos => MkShardIndex (si_heads si) (si_counts si) (si_perm si) pos | None => si end).
Proof.
  induction xs as [|x xs IH]; intros [|[a [pos|]] files] [|j] si p E1 E2; cbn [nth_error live_shards] in *; try discriminate.
  - injection E1 as <-. injection E2 as <-. reflexivity.
  - eauto.
  - injection E1 as <-. injection E2 as <-. reflexivity.
  - eauto.
Qed.
Lemma live_length xs : forall files, length (live_shards xs files) = length xs.
Proof. induction xs as [|x xs IH]; intros [|[a [pos|]] files]; cbn [live_shards length]; auto. Qed.
Lemma carriers_pos H k m n q wss d : In d (carriers H k m n 0 wss q) -> 0 < d /\ (N.to_nat (d - 1) < length wss)%nat.
Proof. intros Hd. apply carriers_in in Hd. unfold nlen in Hd. lia. Qed.

Lemma slot_small n blot : (QueryP.slot_of n blot < num_slots)%nat.
Proof. unfold QueryP.slot_of, num_slots. assert (Y : blot / N.of_nat n mod 65536 < 65536) by (apply N.mod_lt; lia). clear - Y; lia. Qed.
Lemma empty_heads f hist s t : closed_files f hist -> table_of f t -> (s < num_slots)%nat -> content_of hist s = [] -> nth s (map fst t) (-1)%Z = (-1)%Z.
Proof.
  intros (y & log & J & Fl & Sz & ->) T Ls Q. unfold table_of in T. cbn [fst] in T. rewrite (closed_table y log _ J Sz) in T.
  assert (t = map (fun p => (p_head p, p_total p)) (x_ind y)) as -> by congruence. rewrite map_map. cbn [fst].
  pose proof J as (J1 & _). destruct (nth_ex (x_ind y) s) as [p Ep]; [rewrite J1; exact Ls|]. rewrite (nth_map_error _ _ _ _ _ Ep).
  eapply empty_head; eauto.
Qed.

Section B.
  Variables (u : unicode) (c : config) (k m n : nat) (sorted : list N -> list nat).
  Hypothesis F : cfg_full c k m n.
  Hypothesis Hs : sorts sorted.
  Let O : cfg_ok c k m n := cu_ok _ _ _ _ F.
  Let Hn : N.of_nat n < 65536 := cu_n _ _ _ _ F.
  Let Hfl : (1 <= cf_flush c)%Z := cu_flush _ _ _ _ F.
  Notation held wss s b := (held (word_hash u) k m n wss s b).

  (** Heads of an opened shard, and of one opened later. *)
  Lemma open_heads iix pos si : shard_open sorted iix pos = Ok si -> exists t, table_of (iix, pos) t /\ si_heads si = map fst t.
  Proof.
    unfold shard_open, table_of. cbn [fst]. destruct (read_table num_slots iix) as [t| | |] eqn:E; cbn [bind]; try discriminate.
    intros X. injection X as <-. cbn [si_heads]. eauto.
  Qed.
  Lemma open_file iix pos si : shard_open sorted iix pos = Ok si -> si_file si = pos.
  Proof.
    unfold shard_open. destruct (read_table num_slots iix) as [t| | |]; cbn [bind]; try discriminate. intros X. injection X as <-. reflexivity.
  Qed.
  Lemma open_shard dk ix j si : open_index sorted dk = Ok ix -> k_cfg dk = Some c -> nth_error (ix_shards ix) j = Some si ->
    exists iix pos, nth_error (k_shards dk) j = Some (iix, pos) /\ shard_open sorted iix pos = Ok si.
  Proof.
    unfold open_index, read_config. intros E Ec Ej. rewrite Ec, (check_ok c k m n O Hn) in E. cbn [bind] in E.
    destruct (read_some Ok (k_dmd dk)) as [dm| | |]; cbn [bind] in E; try discriminate.
    destruct (read_some read_fnames (k_fnames dk)) as [fn| | |]; cbn [bind] in E; try discriminate.
    destruct (_ <? 0)%Z; [discriminate|]. destruct (for_shards _ _ _) as [xs| | |] eqn:Ef; cbn [bind] in E; try discriminate.
    injection E as <-. cbn [ix_shards] in Ej. destruct (for_shards_nth _ _ _ _ Ef) as [_ N0]. eauto.
  Qed.
  Lemma kept_head t0 t1 s : heads_kept t0 t1 -> nth s (map fst t0) (-1)%Z <> (-1)%Z -> nth s (map fst t1) (-1)%Z = nth s (map fst t0) (-1)%Z.
  Proof.
    clear. intros K N0. destruct (nth_error t0 s) as [[h c0]|] eqn:E.
    - rewrite (nth_map_error fst t0 s (h, c0) (-1)%Z E) in *. cbn [fst] in *. destruct (K s h c0 E N0) as [c1 E1].
      rewrite (nth_map_error fst t1 s (h, c1) (-1)%Z E1). reflexivity.
    - exfalso. apply N0. apply nth_overflow. rewrite map_length. apply nth_error_None, E.
  Qed.

  Lemma live_get ix fs blot grow fuel ds : length (ix_shards ix) = n ->
    exists si, nth_error (live_shards (ix_shards ix) (w_shards fs)) (QueryP.shard_of n blot) = Some si /\
    query_get grow (live ix fs) fuel blot ds = get_loop grow (live ix fs) fuel (negb (is_nil ds)) (si_file si) (new_posts (nth (QueryP.slot_of n blot) (si_heads si) (-1)%Z)) ds.
  Proof.
    intros L. pose proof (co_n _ _ _ _ O) as Pn.
    assert (Lsh : (QueryP.shard_of n blot < n)%nat) by (unfold QueryP.shard_of; assert (X : blot mod N.of_nat n < N.of_nat n) by (apply N.mod_lt; lia); clear - X; lia).
    destruct (nth_ex (live_shards (ix_shards ix) (w_shards fs)) (QueryP.shard_of n blot)) as [si E]; [rewrite live_length; lia|]. exists si. split; [exact E|].
    unfold query_get, get_address. change (ix_shards (live ix fs)) with (live_shards (ix_shards ix) (w_shards fs)). assert (u32 (nlen (live_shards (ix_shards ix) (w_shards fs))) = N.of_nat n) as ->.
    { unfold u32, nlen. rewrite live_length, L. apply N.mod_small. lia. }
    destruct (N.eqb_spec (N.of_nat n) 0); [lia|]. cbn [bind]. fold (QueryP.shard_of n blot). rewrite E. reflexivity.
  Qed.

  Section C.
  Variables (docs0 : list (bytes * doc)) (wss0 : list (list bytes)) (fn0 : fnames) (fs0 : list fields) (dk : disk) (ix : index).
  Hypothesis D : disk_inv u c k m n docs0 wss0 fn0 fs0 dk.
  Hypothesis Eo : open_index sorted dk = Ok ix.
  Hypothesis W0 : words_of (word_char u) docs0 wss0.
  Variables (news : list (list (bytes * doc))) (wss1 : list (list bytes)) (dk1 : disk).
  Hypothesis Si : since u dk news dk1.
  Hypothesis Fit : docs_fit (docs0 ++ all_docs news).
  Hypothesis W1 : words_of (word_char u) (all_docs news) wss1.
  Notation docs := (docs0 ++ all_docs news).
  Notation wss := (wss0 ++ wss1).

  Lemma open_parts : index_ok ix n (fun s b => held wss0 s b) (place_of docs0) /\ wf (ix_fnames ix) /\ skel (ix_fnames ix) = skel fn0.
  Proof.
    destruct (open_index_ok u c k m n O Hn sorted Hs _ wss0 fn0 fs0 dk D W0 (fit_app _ _ Fit)) as (ix' & E & I & _ & _ & Wf & Sk & _).
    assert (ix' = ix) as -> by congruence. split; [exact I|]. split; assumption.
  Qed.
  (** A document of the later sessions, seen by the index opened before. *)
  Lemma live_place e fs d p : (forall b, k_dmd dk1 = Some b -> w_dmd fs = Some (b ++ e)) -> 0 < d -> doc_at docs d p ->
    (known docs0 p -> docid2doc (live ix fs) d = Ok (place_of docs d)) /\ (~ known docs0 p -> docid2doc (live ix fs) d = Panic).
  Proof.
    intros Ed Hd Ep. destruct open_parts as (I & Wf & Sk).
    destruct (since_inv u c k m n F _ _ _ _ _ _ _ D Si W0 wss1 Fit W1) as (fn1 & fs1 & D1 & X & _).
    destruct (record_of u c k m n F _ _ _ _ _ d p D1 Fit Hd Ep) as (f & Ef & Rf).
    pose proof (di_dmd _ _ _ _ _ _ _ _ _ _ D1) as E1. unfold dmd_file in E1. pose proof (Ed _ E1) as E2.
    assert (X0 : extends (ix_fnames ix) fn1) by (destruct X as [t Xt]; exists t; congruence).
    assert (Nq : forall q, node_of docs0 q <-> exists i, is_path (ix_fnames ix) i q).
    { intros q. rewrite (nodes_of u c k m n _ _ _ _ _ D q).
      split; intros [i P]; exists i; (eapply extends_path; [|exact P]); exists []; rewrite app_nil_r; congruence. }
    destruct (place_seen (ix_fnames ix) fn1 docs0 f p Wf (di_wf _ _ _ _ _ _ _ _ _ _ D1) X0 Nq Rf) as [A B].
    unfold docid2doc, live. cbn [ix_dmd ix_fnames]. rewrite E2. rewrite (lookup_longer _ e _ _ Ef). cbn [bind].
    destruct Rf as (R1 & R2 & _). split; intros K.
    - rewrite (A K). cbn [bind]. unfold place_of. unfold doc_at in Ep. rewrite Ep. destruct p as [cwd x]. cbn [fst snd] in *. rewrite R1, R2. reflexivity.
    - rewrite (B K). reflexivity.
  Qed.
  Lemma place_known d p : 0 < d -> (N.to_nat (d - 1) < length docs0)%nat -> doc_at docs d p -> known docs0 p /\ place_of docs d = place_of docs0 d.
  Proof.
    intros Hd L Ep. unfold doc_at in Ep. rewrite nth_error_app1 in Ep by exact L. split.
    - exists p, []. rewrite app_nil_r. split; [eapply nth_error_In, Ep|reflexivity].
    - apply place_of_app. unfold nlen. lia.
  Qed.
  Lemma docs_nth d : (N.to_nat (d - 1) < length docs)%nat -> exists p, doc_at docs d p.
  Proof. intros L. apply nth_ex, L. Qed.
  Lemma held_app s b : exists more, held wss s b = held wss0 s b ++ more.
  Proof. unfold History.held. rewrite carriers_app. eauto. Qed.

  (** ** After the sessions *)
  Lemma live_slot j s : (j < n)%nat -> (s < num_slots)%nat -> exists si,
    nth_error (live_shards (ix_shards ix) (w_shards (files_of dk1))) j = Some si /\
     (held wss0 j s = [] -> posts_next (new_posts (nth s (si_heads si) (-1)%Z)) (si_file si) = Err EOF) /\
     (held wss0 j s <> [] -> reads (si_file si) (new_posts (nth s (si_heads si) (-1)%Z)) (held wss j s)).
  Proof.
    intros Lj Ls. destruct open_parts as (I & _ & _).
    destruct (since_inv u c k m n F _ _ _ _ _ _ _ D Si W0 wss1 Fit W1) as (fn1 & fs1 & D1 & X & Hk).
    assert (Ww : words_of (word_char u) docs wss) by (apply Forall2_app; assumption).
    destruct (open_index_ok u c k m n O Hn sorted Hs _ wss fn1 fs1 dk1 D1 Ww Fit) as (ix1 & E1 & I1 & _).
    destruct (nth_shard (fun x => x) ix _ n _ I j Lj) as [si0 Es0]. destruct (nth_shard (fun x => x) ix1 _ n _ I1 j Lj) as [si1 Es1].
    destruct (open_shard dk ix j si0 Eo (di_cfg _ _ _ _ _ _ _ _ _ _ D) Es0) as (iix0 & pos0 & N0 & O0).
    destruct (open_shard dk1 ix1 j si1 E1 (di_cfg _ _ _ _ _ _ _ _ _ _ D1) Es1) as (iix1 & pos1 & N1 & O1).
    destruct (open_heads _ _ _ O0) as (t0 & T0 & H0). destruct (open_heads _ _ _ O1) as (t1 & T1 & H1).
    pose proof (Hk j _ _ t0 t1 N0 N1 T0 T1) as K.
    assert (Nf : nth_error (w_shards (files_of dk1)) j = Some (Some iix1, Some pos1)) by (unfold files_of; cbn [w_shards]; rewrite nth_error_map, N1; reflexivity).
    pose proof (live_nth _ _ _ _ _ Es0 Nf) as El. cbn [snd] in El. eexists. split; [exact El|]. cbn [si_heads si_file].
    pose proof (open_file _ _ _ O1) as F1.
    destruct (io_reads _ _ _ _ I j si0 Es0 s Ls) as [R0 _]. destruct (io_reads _ _ _ _ I1 j si1 Es1 s Ls) as [R1 _].
    split; intros Q.
    - assert (nth s (si_heads si0) (-1)%Z = (-1)%Z) as ->.
      { rewrite H0. apply (empty_heads (iix0, pos0) _ s t0 (di_closed _ _ _ _ _ _ _ _ _ _ D j _ N0) T0 Ls).
        rewrite (content_held u c k m n F docs0 wss0 j s (fit_app _ _ Fit) W0 Lj Ls). exact Q. }
      unfold posts_next, new_posts. cbn [r_i r_docids r_nextpos length Nat.eqb]. reflexivity.
    - assert (Nh : nth s (si_heads si0) (-1)%Z <> (-1)%Z). { intros Eh. rewrite Eh in R0. apply reads_none in R0. contradiction. }
      rewrite <- F1. rewrite H0 in Nh |- *. rewrite <- (kept_head t0 t1 s K Nh), <- H1. exact R1.
  Qed.

  Lemma blot_held w blot : held w (QueryP.shard_of n blot) (QueryP.slot_of n blot) = carriers (word_hash u) k m n 0 w (blot mod (N.of_nat n * 65536)).
  Proof. pose proof (co_n _ _ _ _ O) as Pn. unfold History.held. rewrite blot_slot by exact Pn. reflexivity. Qed.
  Lemma shard_small blot : (QueryP.shard_of n blot < n)%nat.
  Proof. pose proof (co_n _ _ _ _ O) as Pn. unfold QueryP.shard_of. assert (X : blot mod N.of_nat n < N.of_nat n) by (apply N.mod_lt; lia). clear - X; lia. Qed.
  Theorem live_gets grow blot fuel : (length docs < fuel)%nat ->
    let ids0 := carriers (word_hash u) k m n 0 wss0 (blot mod (N.of_nat n * 65536)) in
    let ids := carriers (word_hash u) k m n 0 wss (blot mod (N.of_nat n * 65536)) in
    (ids0 = [] -> query_get grow (live ix (files_of dk1)) fuel blot None = Ok None) /\
    (ids0 <> [] -> (forall d p, In d ids -> doc_at docs d p -> known docs0 p) ->
      exists ds, query_get grow (live ix (files_of dk1)) fuel blot None = Ok ds /\ docs_keys ds = map (place_of docs) ids) /\
    (ids0 <> [] -> (exists d p, In d ids /\ doc_at docs d p /\ ~ known docs0 p) ->
      query_get grow (live ix (files_of dk1)) fuel blot None = Panic).
  Proof.
    intros Lf ids0 ids. destruct open_parts as (I & _ & _).
    destruct (live_get ix (files_of dk1) blot grow fuel None (io_len _ _ _ _ I)) as (si & Es & ->).
    destruct (live_slot _ _ (shard_small blot) (slot_small n blot)) as (si' & Es' & A & B). assert (si' = si) as -> by congruence.
    rewrite (blot_held wss0) in A, B. rewrite (blot_held wss) in B. fold ids0 in A, B. fold ids in B.
    assert (Ld : forall b, k_dmd dk1 = Some b -> w_dmd (files_of dk1) = Some (b ++ [])) by (intros b E; rewrite app_nil_r; exact E).
    assert (Lids : (length ids <= length docs)%nat).
    { unfold ids. pose proof (words_of_len _ _ _ W0) as L0. pose proof (words_of_len _ _ _ W1) as L1.
      pose proof (carriers_len (word_hash u) k m n (blot mod (N.of_nat n * 65536)) wss 0) as L2. rewrite app_length in *. lia. }
    assert (Dn : forall d, In d ids -> 0 < d /\ exists p, doc_at docs d p).
    { intros d Hd. destruct (carriers_pos _ _ _ _ _ _ _ Hd) as [P1 P2]. split; [exact P1|]. apply docs_nth.
      pose proof (words_of_len _ _ _ W0) as L0. pose proof (words_of_len _ _ _ W1) as L1. rewrite app_length in *. lia. }
    cbn [is_nil negb]. split; [|split].
    - intros Q. destruct fuel as [|fuel]; [lia|]. cbn [get_loop andb]. rewrite (A Q). reflexivity.
    - intros Q Kn. destruct (get_loop_free grow (live ix (files_of dk1)) (place_of docs) (si_file si) ids fuel _ None (B Q)) as (ds & E & _ & El).
      + intros d Hd. destruct (Dn d Hd) as (Pd & p & Ep). apply (proj1 (live_place [] _ d p Ld Pd Ep)). eauto.
      + exact Logic.I.
      + lia.
      + exists ds. split; [exact E|]. unfold docs_keys. rewrite El. cbn [docs_list app]. rewrite map_map. apply map_ext. intros d.
        unfold key_doc, doc_key. destruct (place_of docs d) as [[q a] b]. reflexivity.
    - intros Q (d0 & p0 & Hd0 & Ep0 & Kn). apply (get_loop_panic grow (live ix (files_of dk1)) (place_of docs) _ ids); [exact (B Q)|exact Logic.I|lia| |].
      + intros d Hd. destruct (Dn d Hd) as (Pd & p & Ep). destruct (live_place [] _ d p Ld Pd Ep) as [H1 H2].
        destruct (known_dec docs0 p) as [K|K]; [left; auto|right; auto].
      + exists d0. split; [exact Hd0|]. apply (live_place [] _ d0 p0 Ld); [apply Dn, Hd0|exact Ep0|exact Kn].
  Qed.

  (** ** During a further session *)
  Lemma live_slot_during docs2 fs j s : append_stopped u dk1 docs2 fs -> (j < n)%nat -> (s < num_slots)%nat ->
    (exists e, forall b, k_dmd dk1 = Some b -> w_dmd fs = Some (b ++ e)) /\ exists si,
    nth_error (live_shards (ix_shards ix) (w_shards fs)) j = Some si /\
    reads_first (si_file si) (new_posts (nth s (si_heads si) (-1)%Z)) (held wss0 j s).
  Proof.
    intros St Lj Ls. destruct open_parts as (I & _ & _).
    destruct (since_inv u c k m n F _ _ _ _ _ _ _ D Si W0 wss1 Fit W1) as (fn1 & fs1 & D1 & X & Hk).
    assert (Ww : words_of (word_char u) docs wss) by (apply Forall2_app; assumption).
    inversion St as [x ws fs' Ex Sp Efs]. subst fs'.
    pose proof (di_dmd _ _ _ _ _ _ _ _ _ _ D1) as Em. unfold dmd_file in Em.
    destruct (old_logs u c k m n F sorted _ _ _ _ dk1 x ws D1 Ex) as (logs & G & Op).
    destruct (append_leaves u c k m n F dk1 docs2 x ws fs logs Ex (di_cfg _ _ _ _ _ _ _ _ _ _ D1) G (di_shards _ _ _ _ _ _ _ _ _ _ D1) _ Em Sp) as ((e & Ee) & _ & Wl & Wk).
    split; [exists e; intros b Eb; congruence|].
    destruct (nth_shard (fun x => x) ix _ n _ I j Lj) as [si0 Es0].
    destruct (open_shard dk ix j si0 Eo (di_cfg _ _ _ _ _ _ _ _ _ _ D) Es0) as (iix0 & pos0 & N0 & O0).
    destruct (nth_ex (w_shards fs) j) as [fl Ej]; [congruence|]. destruct (Wk j fl Ej) as (pos & Ep & K).
    destruct (nth_ex (k_shards dk1) j) as [[iix1 pos1] N1]; [rewrite (di_shards _ _ _ _ _ _ _ _ _ _ D1); exact Lj|].
    destruct (Op j iix1 pos1 N1 pos K) as (si1 & O1 & F1 & R1). specialize (R1 s Ls).
    destruct (open_heads _ _ _ O0) as (t0 & T0 & H0). destruct (open_heads _ _ _ O1) as (t1 & T1 & H1).
    pose proof (Hk j (iix0, pos0) (iix1, pos1) t0 t1 N0 N1 T0 T1) as Kh.
    pose proof (live_nth _ _ _ _ _ Es0 Ej) as El. rewrite Ep in El. eexists. split; [exact El|]. cbn [si_heads si_file].
    destruct (io_reads _ _ _ _ I j si0 Es0 s Ls) as [R0 _].
    rewrite (content_held u c k m n F docs wss j s Fit Ww Lj Ls) in R1.
    destruct (held_app j s) as [more Hm]. unfold History.held in Hm. rewrite Hm in R1. apply reads_first_app in R1. fold (History.held (word_hash u) k m n wss0 j s) in R1.
    destruct (Z.eq_dec (nth s (si_heads si0) (-1)%Z) (-1)) as [Eh|Nh].
    - rewrite Eh in R0. apply reads_none in R0. rewrite R0. exact Logic.I.
    - rewrite H0 in Nh |- *. rewrite <- (kept_head t0 t1 s Kh Nh), <- H1. exact R1.
  Qed.
  Theorem live_during docs2 fs grow blot fuel back : append_stopped u dk1 docs2 fs ->
    let ids0 := carriers (word_hash u) k m n 0 wss0 (blot mod (N.of_nat n * 65536)) in
    (length back <= length ids0)%nat -> (length docs0 < fuel)%nat ->
    exists ds, query_get grow (live ix fs) fuel blot (Some (0%nat, back)) = Ok ds /\
      docs_keys ds = map (place_of docs0) (firstn (length back) ids0).
  Proof.
    intros St ids0 Lb Lf. destruct open_parts as (I & _ & _).
    destruct (live_get ix fs blot grow fuel (Some (0%nat, back)) (io_len _ _ _ _ I)) as (si & Es & ->).
    destruct (live_slot_during docs2 fs _ _ St (shard_small blot) (slot_small n blot)) as ((e & Ee) & si' & Es' & R).
    assert (si' = si) as -> by congruence. rewrite (blot_held wss0) in R. fold ids0 in R. cbn [is_nil negb].
    pose proof (carriers_len (word_hash u) k m n (blot mod (N.of_nat n * 65536)) wss0 0) as Lc. fold ids0 in Lc. pose proof (words_of_len _ _ _ W0) as Lw.
    rewrite (get_loop_first grow (live ix fs) (place_of docs0) (si_file si) ids0); try lia; [|exact R|].
    - eexists. split; [reflexivity|]. unfold docs_keys, docs_list. rewrite Nat.sub_0_r.
      assert (Lm : length (map (place_of docs0) (firstn (length back) ids0)) = length back) by (rewrite map_length, firstn_length; lia).
      pose proof (store_keys grow (map (place_of docs0) (firstn (length back) ids0)) 0 back) as Sk. rewrite Lm in Sk. apply Sk. lia.
    - intros d Hd. destruct (carriers_pos _ _ _ _ _ _ _ Hd) as [P1 P2]. rewrite Lw in P2.
      destruct (docs_nth d) as [p Ep]; [rewrite app_length; lia|]. destruct (place_known d p P1 P2 Ep) as [Kn <-].
      apply (proj1 (live_place e fs d p Ee P1 Ep)), Kn.
  Qed.
  End C.
End B.
