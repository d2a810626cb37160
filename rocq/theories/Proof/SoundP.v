(** What can be read after a session has stopped half-way is right. *)
From Verif Require Import Model.Base Model.Address Model.Varint Model.Utf8 Model.Token Model.Blotter Model.Post Model.Poster Model.Shatter Model.Shard Model.Dmd Model.Fnames Model.Conc Model.Config Model.Json Model.Run Model.Index Model.Query Model.Session Model.Crash.
From Verif Require Import Spec.Text Spec.Fingerprint Spec.Configs Spec.Posting Spec.Postings Spec.Paths Spec.Reading Spec.Querying Spec.History.
From Verif Require Import Proof.Tactics Proof.VarintP Proof.TokenP Proof.BlotterP Proof.ShatterP Proof.IndexP2 Proof.DmdP Proof.FnamesP Proof.FnamesP2 Proof.PosterP Proof.ShardP Proof.ConcP Proof.ConcRun Proof.QueryP Proof.JsonP Proof.ConfigP Proof.SessionP Proof.SessionP2 Proof.JsonP2 Proof.CutP Proof.CrashP Proof.KeepP Proof.CrashP2 Proof.CrashP3 Proof.LiveP Proof.ReuseP Proof.DamagedP3 Proof.PartlyP.
From Coq Require Import Lia.
Local Open Scope N_scope.

(** * Document records *)
Definition begins (g : option bytes) (all : list fields) : Prop := exists b r, (g = Some b \/ g = None /\ b = []) /\ render_dmd all = b ++ r.
Lemma begins_more g all more : begins g all -> begins g (all ++ more).
Proof. intros (b & r & E & Er). exists b, (r ++ render_dmd more). split; [exact E|]. rewrite render_dmd_app, Er, <- app_assoc. reflexivity. Qed.
Lemma inv_begins all dm : dmd_inv all dm -> begins (snd dm) all.
Proof.
  intros (done & -> & Hf & _). apply begins_more. exists (render_dmd done), []. rewrite app_nil_r. split; [|reflexivity].
  destruct (snd dm); cbn [file_bytes] in Hf; [left; congruence|right; split; congruence].
Qed.
Lemma flushcut_begins all dm g : dmd_inv all dm -> flush_cut dm g -> begins g all.
Proof.
  intros (done & -> & Hf & _) C. destruct C as [pre post E]. exists (render_dmd done ++ pre), post. rewrite render_dmd_app, <- app_assoc. split.
  - left. rewrite <- Hf. unfold file_append. destruct (snd dm); reflexivity.
  - f_equal. exact E.
Qed.
Lemma addcut_begins all dm g : dmd_inv all dm -> add_cut dm g -> begins g all.
Proof. intros I [|f _ C]; [apply inv_begins, I|eapply flushcut_begins; eauto]. Qed.
Lemma closecut_begins all dm g : dmd_inv all dm -> close_cut dm g -> begins g all.
Proof. intros I [|f _ C]; [apply inv_begins, I|eapply flushcut_begins; eauto]. Qed.
Lemma close_begins all dm : dmd_inv all dm -> begins (adder_close dm) all.
Proof.
  intros I. pose proof (inv_begins all dm I) as B. destruct dm as [a f]. unfold adder_close. destruct (a_buf a) eqn:Eb; [exact B|].
  eapply flushcut_begins; [exact I|]. cbn [adder_flush snd fst]. pose proof (flush_cut_at (a, f) (concat (flush_writes a)) []) as X. cbn [fst snd] in X. apply X. rewrite app_nil_r. reflexivity.
Qed.

(** * Places *)
Lemma place_right fn1 fs1 docs g fn ds0 ss0 d pl : wf fn1 -> Forall2 (rec_of fn1) fs1 docs -> docs_fit docs -> begins (Some g) (zero_fields :: fs1) ->
  (forall f p, rec_of fn1 f p -> forall q, fn_abs fn (f_fid f) = Ok q -> q = show_abs (spec_abs (fst p) (d_path (snd p)))) ->
  0 < d -> N.of_nat (N.to_nat d) <= nlen docs -> docid2doc (MkIndex ds0 g fn ss0) d = Ok pl -> pl = place_of docs d.
Proof.
  intros W R Fit (b & r & Eb & Er) Nm Hd Ld E. assert (b = g) as -> by (destruct Eb as [Eb|[Eb _]]; [congruence|discriminate]).
  unfold nlen in Ld. destruct (nth_ex docs (N.to_nat (d - 1))) as [p Ep]; [lia|].
  pose proof (recs_len _ _ _ R) as Lf. destruct (nth_ex fs1 (N.to_nat (d - 1))) as [f Ef]; [lia|].
  assert (Rc : rec_of fn1 f p).
  { clear -Ep Ef R. revert Ep Ef. generalize (N.to_nat (d - 1)). induction R as [|a p0 l l' A F IH]; intros [|i] E1 E2; cbn [nth_error] in *; try discriminate; [|eauto].
    assert (a = f) as -> by congruence. assert (p0 = p) as -> by congruence. exact A. }
  assert (WF : Forall wf_fields fs1).
  { pose proof (df_ok _ Fit) as FO. clear -R W FO. change (2 ^ 32) with 4294967296 in *. induction R as [|a p0 l l' (A & B & C) G IH]; [constructor|].
    inversion FO as [|? ? (O1 & O2 & O3) FO']; subst. change (2 ^ 32) with 4294967296 in *. constructor; [|auto]. split; [|split].
    - pose proof (is_path_lt fn1 _ _ W C). pose proof (wf_size fn1 W). lia.
    - rewrite A. exact O2.
    - rewrite B. exact O3. }
  assert (El : dmd_lookup (render_dmd (zero_fields :: fs1)) d = Ok f) by (replace d with (N.of_nat (S (N.to_nat (d - 1)))) at 1 by lia; apply (dmd_lookup_file fs1 _ f WF Ef)).
  unfold docid2doc in E. cbn [ix_dmd ix_fnames] in E. destruct (dmd_lookup g d) as [v| | |] eqn:Eg; cbn [bind] in E; try discriminate.
  pose proof (lookup_longer g r d v Eg) as Eg'. rewrite <- Er, El in Eg'. assert (v = f) as -> by congruence.
  destruct (fn_abs fn (f_fid f)) as [q| | |] eqn:Eq; cbn [bind] in E; try discriminate. rewrite (Nm f p Rc q Eq) in E.
  unfold place_of. rewrite Ep. destruct p as [cwd x]. destruct Rc as (R1 & R2 & _). cbn [fst snd] in *. rewrite R1, R2 in E. congruence.
Qed.

(** * A query with more room goes on where another ends. *)
Section More.
  Variables (grow : nat -> nat) (ix : index).
  Lemma put_doc_keys lim ds p s e ds1 : docs_wf ds -> put_doc grow lim ds p s e = Ok ds1 ->
    docs_wf ds1 /\ docs_keys ds1 = docs_keys ds ++ [(p, s, e)] /\ (lim = true -> docs_cap ds1 = docs_cap ds).
  Proof.
    intros W Ep. destruct lim.
    - destruct ds as [[n back]|]; [|discriminate Ep]. cbn [docs_wf docs_cap] in *. unfold put_doc in Ep. destruct (nth_error back n) as [old|] eqn:Eo; [|discriminate Ep].
      assert (ds1 = Some (S n, upd n (MkDoc p s e (d_dat old)) back)) as -> by congruence. assert (Ln : (n < length back)%nat) by (apply nth_error_Some; congruence).
      split; [cbn [docs_wf]; rewrite upd_length; lia|]. split; [|intros _; cbn [docs_cap]; apply upd_length].
      unfold docs_keys. cbn [docs_list]. rewrite firstn_upd_S by exact Ln. rewrite map_app. reflexivity.
    - destruct (put_doc_free grow ds p s e W) as (ds2 & E2 & W2 & L2 & _). rewrite E2 in Ep. assert (ds1 = ds2) as -> by congruence.
      split; [exact W2|]. split; [|discriminate]. unfold docs_keys. rewrite L2, map_app. reflexivity.
  Qed.
  Lemma loop_keys f lim fuel : forall ps ds r, docs_wf ds -> get_loop grow ix fuel lim f ps ds = Ok r -> exists l, docs_keys r = docs_keys ds ++ l.
  Proof.
    induction fuel as [|fuel IH]; intros ps ds r W E; cbn [get_loop] in E; [discriminate|].
    destruct (lim && _); [exists []; rewrite app_nil_r; congruence|].
    destruct (posts_next ps f) as [[d r']|[]| |]; try discriminate; [|exists []; rewrite app_nil_r; congruence].
    destruct (docid2doc ix d) as [[[p s] e]| | |]; cbn [bind] in E; try discriminate.
    destruct (put_doc grow lim ds p s e) as [ds1| | |] eqn:Ep; cbn [bind] in E; try discriminate.
    destruct (put_doc_keys _ _ _ _ _ _ W Ep) as (W1 & K1 & _). destruct (IH _ _ _ W1 E) as [l K]. rewrite K, K1, <- app_assoc. eexists. reflexivity.
  Qed.
  Lemma more_room f lim : forall fuel1 fuel2 ps ds1 ds2 r1 r2, docs_wf ds1 -> docs_wf ds2 -> docs_keys ds1 = docs_keys ds2 ->
    (lim = true -> (docs_cap ds1 <= docs_cap ds2)%nat) ->
    get_loop grow ix fuel1 true f ps ds1 = Ok r1 -> get_loop grow ix fuel2 lim f ps ds2 = Ok r2 -> exists l, docs_keys r2 = docs_keys r1 ++ l.
  Proof.
    induction fuel1 as [|fuel1 IH]; intros fuel2 ps ds1 ds2 r1 r2 W1 W2 K C E1 E2; [discriminate|]. cbn [get_loop] in E1.
    pose proof (keys_len ds1 W1) as L1. pose proof (keys_len ds2 W2) as L2. rewrite <- K, L1 in L2.
    destruct (true && (docs_len ds1 =? docs_cap ds1)%nat) eqn:Ec.
    { assert (r1 = ds1) as -> by congruence. rewrite K. eapply loop_keys; eauto. }
    cbn [andb] in Ec. apply Nat.eqb_neq in Ec.
    assert (Lt : (docs_len ds1 < docs_cap ds1)%nat) by (destruct ds1 as [[a b]|]; cbn [docs_wf docs_len docs_cap] in *; lia).
    destruct fuel2 as [|fuel2]; [discriminate|]. cbn [get_loop] in E2.
    assert (lim && (docs_len ds2 =? docs_cap ds2)%nat = false) as X by (destruct lim; cbn [andb]; [specialize (C eq_refl); apply Nat.eqb_neq; lia|reflexivity]).
    rewrite X in E2. destruct (posts_next ps f) as [[d r']|[]| |]; try discriminate; [|exists []; rewrite app_nil_r; congruence].
    destruct (docid2doc ix d) as [[[p s] e]| | |]; cbn [bind] in E1, E2; try discriminate.
    destruct (put_doc grow true ds1 p s e) as [ds1'| | |] eqn:P1; cbn [bind] in E1; try discriminate.
    destruct (put_doc grow lim ds2 p s e) as [ds2'| | |] eqn:P2; cbn [bind] in E2; try discriminate.
    destruct (put_doc_keys _ _ _ _ _ _ W1 P1) as (W1' & K1 & C1). destruct (put_doc_keys _ _ _ _ _ _ W2 P2) as (W2' & K2 & C2).
    eapply (IH fuel2 r' ds1' ds2'); eauto; [congruence|]. intros El. rewrite (C1 eq_refl), (C2 El). auto.
  Qed.
  Lemma query_more fuel1 fuel2 blot back ds2 r1 r2 : docs_wf ds2 -> docs_len ds2 = 0%nat -> (is_nil ds2 = false -> (length back <= docs_cap ds2)%nat) ->
    query_get grow ix fuel1 blot (Some (0%nat, back)) = Ok r1 -> query_get grow ix fuel2 blot ds2 = Ok r2 -> exists l, docs_keys r2 = docs_keys r1 ++ l.
  Proof.
    intros W Z C E1 E2. unfold query_get in E1, E2. destruct (get_address _ blot) as [[s sb]| | |]; cbn [bind] in E1, E2; try discriminate.
    destruct (nth_error (ix_shards ix) (N.to_nat s)) as [si|]; [|discriminate].
    refine (more_room _ _ _ _ _ _ _ _ _ _ W _ _ E1 E2); [cbn [docs_wf]; lia| |].
    - pose proof (keys_len ds2 W) as L. rewrite Z in L. destruct (docs_keys ds2); [reflexivity|discriminate].
    - intros N. apply C. destruct (is_nil ds2); [discriminate|reflexivity].
  Qed.
End More.

Section A.
  Variables (u : unicode) (c : config) (k m n : nat).
  Hypothesis F : cfg_full c k m n.
  Hypothesis V : cfg_values c.
  Let O : cfg_ok c k m n := cu_ok _ _ _ _ F.
  Let Hn : N.of_nat n < 65536 := cu_n _ _ _ _ F.
  Let Hfl : (1 <= cf_flush c)%Z := cu_flush _ _ _ _ F.
  Notation held wss s j := (carriers (word_hash u) k m n 0 wss (N.of_nat s * N.of_nat n + N.of_nat j)).
  Notation posts j wss := (posts_for (word_hash u) k m n j 0 wss).
  Notation disk_inv := (SessionP.disk_inv u c k m n).
  Notation start_inv := (SessionP.start_inv u c k m n).

  (** The records and names the session would leave, and how much of them there is. *)
  Lemma stop_records docs0 wss0 fs0 dk x ws docs fs : start_inv docs0 wss0 fs0 x ws -> docs_fit (docs0 ++ docs) ->
    Crash.stopped u x ws (files_of dk) docs fs ->
    exists fn1 fs1, wf fn1 /\ extends (x_fnames x) fn1 /\ Forall2 (rec_of fn1) fs1 (docs0 ++ docs) /\ begins (w_dmd fs) (zero_fields :: fs1) /\
      (w_fnames fs = k_fnames dk \/ exists pre post, fn_write fn1 = pre ++ post /\ w_fnames fs = Some pre).
  Proof.
    intros I Fit St. pose proof (df_ok _ Fit) as FO. apply Forall_app in FO. destruct FO as [_ FO].
    pose proof (df_len _ Fit) as FL. pose proof (df_room _ Fit) as FR. change (2 ^ 32) with 4294967296 in *.
    assert (PR : forall a b, path_room (a ++ b) = path_room a + path_room b).
    { clear. induction a as [|p a IH]; intros b; cbn [app path_room]; [reflexivity|]. rewrite IH. lia. }
    rewrite PR in FR. pose proof (recs_len _ _ _ (xi_recs _ _ _ _ _ _ _ _ _ _ I)) as Lf. pose proof (xi_room _ _ _ _ _ _ _ _ _ _ I) as Rm.
    unfold nlen in FL. rewrite app_length in FL.
    (* the documents up to some point, then the others *)
    assert (Two : forall done rest fn dm ids, docs = done ++ rest -> doc_ids (x_fnames x) (x_dmds x) done = Ok (fn, dm, ids) ->
      exists fsd, dmd_inv (zero_fields :: fs0 ++ fsd) dm /\ wf fn /\ extends (x_fnames x) fn /\ Forall2 (rec_of fn) fsd done /\
        exists fn1 fsr, wf fn1 /\ extends fn fn1 /\ Forall2 (rec_of fn1) fsr rest).
    { intros done rest fn dm ids -> Ed. rewrite app_length in FL. rewrite PR in FR. apply Forall_app in FO. destruct FO as [FO1 FO2].
      destruct (doc_ids_spec done (x_fnames x) (x_dmds x) (zero_fields :: fs0) (xi_wf _ _ _ _ _ _ _ _ _ _ I)) as (fn' & dm' & fsd & E1 & W & X & Ln & Id & Rc & _).
      { lia. } { exact FO1. } { apply (xi_dmds _ _ _ _ _ _ _ _ _ _ I). } { unfold nlen. cbn [length]. lia. }
      rewrite E1 in Ed. injection Ed as -> -> _. exists fsd. repeat (split; [assumption|]).
      pose proof (recs_len _ _ _ Rc) as Lfd.
      destruct (doc_ids_spec rest fn dm (zero_fields :: fs0 ++ fsd) W) as (fn1 & dm1 & fsr & _ & W1 & X1 & _ & _ & R1 & _).
      { lia. } { exact FO2. } { exact Id. } { unfold nlen. cbn [length]. rewrite app_length. lia. }
      exists fn1, fsr. auto. }
    assert (All : forall fn, extends (x_fnames x) fn -> Forall2 (rec_of fn) fs0 docs0) by (intros fn X; eapply rec_of_extends; [exact X|apply (xi_recs _ _ _ _ _ _ _ _ _ _ I)]).
    inversion St as [st done rest req fn dm ids f sh H1 H2 H3 H4 H5 H6 Efs|st fn dm ids fs1 H1 H2 H3 H4 Efs].
    - destruct (Two done rest fn dm ids H2 H4) as (fsd & Id & W & X & Rd & fn1 & fsr & W1 & X1 & Rr).
      exists fn1, (fs0 ++ fsd ++ fsr). split; [exact W1|]. assert (X2 : extends (x_fnames x) fn1) by (eapply extends_trans; eauto). split; [exact X2|]. split; [|split; [|left; reflexivity]].
      + apply Forall2_app; [apply All, X2|]. rewrite H2. apply Forall2_app; [|exact Rr]. eapply rec_of_extends; [exact X1|exact Rd].
      + cbn [w_dmd]. rewrite app_assoc. change (zero_fields :: (fs0 ++ fsd) ++ fsr) with ((zero_fields :: fs0 ++ fsd) ++ fsr). apply begins_more.
        destruct rest; [rewrite H5; apply inv_begins, Id|]. destruct req; [rewrite H5; apply inv_begins, Id|]. eapply addcut_begins; eauto.
    - subst fs1. destruct (Two docs [] fn dm ids (eq_sym (app_nil_r _)) H3) as (fsd & Id & W & X & Rd & _).
      exists fn, (fs0 ++ fsd). split; [exact W|]. split; [exact X|]. split; [apply Forall2_app; [apply All, X|exact Rd]|].
      inversion H4 as [f sh Wc S E|pre post sh Wc S E|f sh Wc S E|sh S E]; cbn [w_dmd w_fnames].
      + split; [apply inv_begins, Id|left; reflexivity].
      + split; [apply inv_begins, Id|right; eauto].
      + split; [eapply closecut_begins; eauto|right; exists (fn_write fn), []; rewrite app_nil_r; auto].
      + split; [apply close_begins, Id|right; exists (fn_write fn), []; rewrite app_nil_r; auto].
  Qed.

  (** * Shards *)
  Lemma old_within sorted y log hist more pos si f : shard_inv y log (content_of hist) -> flushed y -> (Z.of_nat (log_size log) < 9223372036854775808)%Z ->
    shard_open sorted (iix_bytes (x_ind y)) pos = Ok si -> holds_part log f pos -> bounded f ->
    forall s, (s < num_slots)%nat -> reads_within (si_file si) (new_posts (nth s (si_heads si) (-1)%Z)) (content_of (f ++ more) s).
  Proof.
    intros I Hf Hsz Eo Hp B s Hs. rewrite (open_file sorted _ _ _ Eo). destruct (open_heads sorted _ _ _ Eo) as (t & T & ->). unfold table_of in T. cbn [fst] in T.
    rewrite (closed_table y log hist I Hsz) in T. assert (t = map (fun p => (p_head p, p_total p)) (x_ind y)) as -> by congruence. clear T Eo.
    destruct I as (I1 & I2 & I3 & I4 & I5).
    destruct (nth_error (x_ind y) s) as [p|] eqn:E; [|apply nth_error_None in E; lia].
    rewrite map_map. cbn [fst]. rewrite (nth_map_error _ _ _ _ _ E).
    destruct (I5 s p E) as (_ & H2 & _). rewrite H2. apply part_within; assumption.
  Qed.
  Lemma open_table sorted iix pos si : shard_open sorted iix pos = Ok si -> exists t, table_of (iix, pos) t /\ si_counts si = map snd t.
  Proof.
    unfold shard_open, table_of. cbn [fst]. destruct (read_table num_slots iix) as [t| | |] eqn:E; cbn [bind]; try discriminate.
    intros X. injection X as <-. cbn [si_counts]. eauto.
  Qed.
  Lemma open_counts sorted y log hist pos si : shard_inv y log (content_of hist) -> (Z.of_nat (log_size log) < 9223372036854775808)%Z ->
    shard_open sorted (iix_bytes (x_ind y)) pos = Ok si -> bounded hist -> forall s, (s < num_slots)%nat -> nth s (si_counts si) 0 = nlen (content_of hist s).
  Proof.
    intros I Hsz Eo B s Hs. destruct (open_table sorted _ _ _ Eo) as (t & T & ->). unfold table_of in T. cbn [fst] in T.
    rewrite (closed_table y log hist I Hsz) in T. assert (t = map (fun p => (p_head p, p_total p)) (x_ind y)) as -> by congruence. clear T Eo.
    destruct I as (I1 & I2 & I3 & I4 & I5). destruct (nth_error (x_ind y) s) as [p|] eqn:E; [|apply nth_error_None in E; lia].
    rewrite map_map. cbn [snd]. rewrite (nth_map_error _ _ _ _ _ E). destruct (I5 s p E) as (_ & _ & _ & H4 & _). rewrite H4. specialize (B s).
    unfold content_of, u32. apply N.mod_small. exact B.
  Qed.
  (** What can be read of a slot after the stop: some of the list, under the old count or,
      all of it, under the new one. *)
  Definition slot_left (si : shard_index) (s : nat) (old all : list N) : Prop :=
    reads_within (si_file si) (new_posts (nth s (si_heads si) (-1)%Z)) all /\
    (nth s (si_counts si) 0 = nlen old \/ nth s (si_counts si) 0 = nlen all /\ reads (si_file si) (new_posts (nth s (si_heads si) (-1)%Z)) all).
  Lemma stop_shards sorted docs0 wss0 fn0 fs0 dk x ws docs wss fs : disk_inv docs0 wss0 fn0 fs0 dk -> open_indexer dk = Ok (x, ws) -> start_inv docs0 wss0 fs0 x ws ->
    docs_fit (docs0 ++ docs) -> words_of (word_char u) docs0 wss0 -> words_of (word_char u) docs wss -> Crash.stopped u x ws (files_of dk) docs fs ->
    length (w_shards fs) = n /\ forall j fl, nth_error (w_shards fs) j = Some fl -> exists i p, fl = (Some i, Some p) /\
      forall si, shard_open sorted i p = Ok si -> forall s, (s < num_slots)%nat ->
        slot_left si s (content_of (posts j wss0) s) (content_of (posts j (wss0 ++ wss)) s).
  Proof.
    intros D Ex I Fit W0 W1 St. pose proof (df_len _ Fit) as FL. change (2 ^ 32) with 4294967296 in *. unfold nlen in FL. rewrite app_length in FL.
    pose proof (di_shards _ _ _ _ _ _ _ _ _ _ D) as Ls.
    destruct (session_inv u c k m n O Hn _ x ws _ _ _ docs wss Ex I Fit W0 W1) as (_ & _ & _ & Last).
    destruct (cfg_nat _ _ _ _ O) as (En & Es & Hk & Hm & Hn0).
    destruct (start_workers_good u c k m n ws O (xi_ws _ _ _ _ _ _ _ _ _ _ I)) as (Gw & Lw).
    assert (Lr : length (requests docs) = length docs) by apply map_length.
    assert (Hl' : nlen docs0 + nlen (requests docs) < 4294967295) by (unfold nlen; lia).
    pose proof (words_of_len _ _ _ W0) as Lw0. pose proof (words_of_len _ _ _ W1) as Lw1.
    assert (Small : small (word_hash u) k m (wss0 ++ wss)).
    { apply Forall_app. split; [eapply words_of_small, W0|eapply words_of_small, W1]. }
    assert (B : forall j o, nth_error (k_shards dk) j = Some o -> bounded (posts j (wss0 ++ wss))).
    { intros j o Ej. assert (j < n)%nat by (rewrite <- Ls; eapply nth_len, Ej). apply posts_bounded; auto; unfold nlen; rewrite app_length; lia. }
    assert (Ep : forall j, posts j (wss0 ++ wss) = posts j wss0 ++ posts_for (word_hash u) k m n j (nlen docs0) wss).
    { intros j. rewrite posts_for_app. replace (0 + nlen wss0) with (nlen docs0) by (unfold nlen; lia). reflexivity. }
    (* the shards at a point of the session *)
    assert (At : forall st, session_steps u (x_cfg x) (session_start (adder_last (fst (x_dmds x))) ws (x_shards x) (requests docs)) st ->
      length (s_servers st) = n /\ forall j v, nth_error (s_servers st) j = Some v -> exists y log done rest e,
        nth_error (k_shards dk) j = Some (iix_bytes (x_ind y), x_file y) /\ shard_inv y log (content_of (posts j wss0)) /\ flushed y /\ (Z.of_nat (log_size log) < 9223372036854775808)%Z /\
        posts j (wss0 ++ wss) = (posts j wss0 ++ done) ++ rest /\ shard_inv (v_shard v) (log ++ e) (content_of (posts j wss0 ++ done)) /\
        ((exists i, s_main st = MChan i) -> rest = [])).
    { intros st Est. rewrite (xi_cfg _ _ _ _ _ _ _ _ _ _ I), Last in Est. unfold session_steps, session_start in Est. rewrite En, Es in Est.
      destruct (run_prefix serve_post u k m n Hk Hm Hn0 ltac:(lia) (requests docs) wss (nlen docs0) ws (x_shards x) Gw (xi_shards _ _ _ _ _ _ _ _ _ _ I) Hl'
        (words_of_requests _ _ _ W1) st Est) as (Lsv & Pr). split; [exact Lsv|]. intros j v Ev.
      assert (Lj : (j < n)%nat) by (rewrite <- Lsv; eapply nth_len, Ev).
      destruct (nth_ex (x_shards x) j) as [s0 Es0]; [rewrite (xi_shards _ _ _ _ _ _ _ _ _ _ I); exact Lj|].
      destruct (nth_ex (k_shards dk) j) as [f0 E0]; [rewrite Ls; exact Lj|].
      destruct (di_closed _ _ _ _ _ _ _ _ _ _ D j _ E0) as (y & log & J & Fl & Sz & Ef).
      assert (s0 = y) as ->.
      { destruct (open_indexer_parts c k m n F dk x ws Ex (di_cfg _ _ _ _ _ _ _ _ _ _ D)) as (_ & _ & X4). destruct (for_shards_nth _ _ _ _ X4) as [_ Nx].
        destruct (Nx j s0 Es0) as (i4 & p4 & E4 & E5). rewrite E0 in E4. rewrite Ef in E4. injection E4 as <- <-.
        rewrite (shard_append_spec y log _ J Fl Sz) in E5. congruence. }
      assert (G : exists done rest, posts_for (word_hash u) k m n j (nlen docs0) wss = done ++ rest /\ v_shard v = fold_left serve_post done y /\ ((exists i, s_main st = MChan i) -> rest = [])).
      { assert (Dc : (exists i, s_main st = MChan i) \/ ~ exists i, s_main st = MChan i) by (destruct (s_main st); [right|right|left; eauto]; intros [i X]; discriminate).
        destruct Dc as [[i Em]|Nm].
        - destruct (run_complete serve_post u k m n Hk Hm Hn0 ltac:(lia) (requests docs) wss (nlen docs0) ws (x_shards x) Gw (xi_shards _ _ _ _ _ _ _ _ _ _ I) Hl'
            (words_of_requests _ _ _ W1) st i Est Em) as (_ & Y). eexists _, []. rewrite app_nil_r. split; [reflexivity|]. split; [apply (Y j v y Ev Es0)|auto].
        - destruct (Pr j v y Ev Es0) as (done & rest & A1 & A2). exists done, rest. split; [exact A1|]. split; [exact A2|]. intros X. contradiction. }
      destruct G as (done & rest & A1 & A2 & A3).
      assert (B1 : bounded (posts j wss0 ++ done)) by (apply (bounded_app_l _ rest); rewrite <- app_assoc, <- A1, <- Ep; apply (B _ _ E0)).
      destruct (serve_batch_log done y log _ J B1) as [e Je]. exists y, log, done, rest, e. rewrite A2.
      split; [congruence|]. split; [exact J|]. split; [exact Fl|]. split; [exact Sz|]. split; [rewrite Ep, A1, app_assoc; reflexivity|]. split; [exact Je|exact A3]. }
    assert (Wl : length (w_shards (files_of dk)) = n) by (unfold files_of; cbn [w_shards]; rewrite map_length; exact Ls).
    assert (Old : forall A (P : A -> option bytes -> option bytes * option bytes -> Prop) (xs : list A) sh, shards_at P xs (w_shards (files_of dk)) sh -> length xs = n -> length sh = n /\
      forall j f, nth_error sh j = Some f -> exists y iix, nth_error xs j = Some y /\ (forall o, nth_error (k_shards dk) j = Some o -> iix = Some (fst o)) /\ P y iix f).
    { intros A P xs sh S Lxs. destruct (shards_at_nth P xs _ _ S) as [L1 N1]. split; [congruence|]. intros j f Ej.
      pose proof (nth_len _ _ _ Ej) as Lj. destruct (nth_ex xs j) as [y Ey]; [congruence|]. destruct (nth_ex (w_shards (files_of dk)) j) as [o Eo]; [rewrite Wl; congruence|].
      exists y, (fst o). split; [exact Ey|]. split; [|eauto]. intros o' Eo'. unfold files_of in Eo. cbn [w_shards] in Eo. rewrite nth_error_map, Eo' in Eo. cbn [option_map] in Eo.
      assert (o = (Some (fst o'), Some (snd o'))) as -> by congruence. reflexivity. }
    (* a file that holds part, under the old table *)
    assert (Part : forall j iix p y log hist rest, nth_error (k_shards dk) j = Some (iix_bytes (x_ind y), x_file y) -> shard_inv y log (content_of (posts j wss0)) -> flushed y ->
      (Z.of_nat (log_size log) < 9223372036854775808)%Z -> posts j (wss0 ++ wss) = hist ++ rest -> holds_part log hist p ->
      (forall o, nth_error (k_shards dk) j = Some o -> iix = Some (fst o)) -> exists i q, (iix, Some p) = (Some i, Some q) /\
      forall si, shard_open sorted i q = Ok si -> forall s, (s < num_slots)%nat ->
        slot_left si s (content_of (posts j wss0) s) (content_of (posts j (wss0 ++ wss)) s)).
    { intros j iix p y log hist rest Ek J Fl Sz Eh Hp Hi. rewrite (Hi _ Ek). cbn [fst]. eexists _, _. split; [reflexivity|]. intros si Eo s Hs. split.
      - rewrite Eh. eapply old_within; eauto. apply (bounded_app_l hist rest). rewrite <- Eh. apply (B _ _ Ek).
      - left. eapply open_counts; eauto. eapply bounded_app_l. rewrite <- Ep. apply (B _ _ Ek). }
    assert (Whole : forall x' log e hist, shard_inv x' (log ++ e) (content_of hist) -> holds_part log hist (x_file x')).
    { intros x' log e hist J. exists e, x'. split; [exact J|]. destruct J as (_ & -> & _). apply render_partly. }
    inversion St as [st done rest req fn dm ids f sh H1 H2 H3 H4 H5 H6 Efs|st fn dm ids fs1 H1 H2 H3 H4 Efs]; cbn [w_shards].
    - destruct (At st H1) as [L1 A1]. destruct (Old _ _ _ _ H6 L1) as [L2 N2]. split; [exact L2|]. intros j fl Ej.
      destruct (N2 j fl Ej) as (v & iix & Ev & Hi & Sv). destruct (A1 j v Ev) as (y & log & dn & rs & e & Ek & J & Fl & Sz & Eh & Jv & _).
      inversion Sv as [Es'|p ps pos Eb Wp Es'].
      + eapply Part; eauto.
      + assert (Szv : (Z.of_nat (log_size (log ++ e)) < 9223372036854775808)%Z).
        { apply (shard_file_size _ _ _ Jv). assert (Bd : bounded (posts j wss0 ++ dn)) by (apply (bounded_app_l _ rs); rewrite <- Eh; apply (B _ _ Ek)). exact Bd. }
        destruct (serve_cut (v_shard v) (log ++ e) _ p pos Jv Szv Wp) as [Pa| ->].
        * eapply Part; eauto. exists e, (v_shard v). split; assumption.
        * destruct (At (set_server j (MkServer (VBusy ps) (serve_post (v_shard v) p) (v_closed v)) st)) as [_ A2].
          { eapply steps_step; [exact H1|]. apply StepAbsorb; assumption. }
          destruct (A2 j (MkServer (VBusy ps) (serve_post (v_shard v) p) (v_closed v))) as (y2 & log2 & dn2 & rs2 & e2 & Ek2 & J2 & Fl2 & Sz2 & Eh2 & Jv2 & _).
          { unfold set_server. cbn [s_servers]. rewrite nth_error_upd, Nat.eqb_refl, Ev. reflexivity. }
          cbn [v_shard] in Jv2. eapply Part; eauto.
    - subst fs1. destruct (At st H1) as [L1 A1]. assert (Lv : length (map v_shard (s_servers st)) = n) by (rewrite map_length; exact L1).
      assert (Nv : forall j z, nth_error (map v_shard (s_servers st)) j = Some z -> exists v, nth_error (s_servers st) j = Some v /\ z = v_shard v).
      { intros j z Ez. rewrite nth_error_map in Ez. destruct (nth_error (s_servers st) j) as [v|]; [|discriminate]. exists v. cbn [option_map] in Ez. split; congruence. }
      assert (Still : forall sh, shards_at (fun x iix p => p = (iix, Some (x_file x))) (map v_shard (s_servers st)) (w_shards (files_of dk)) sh ->
        length sh = n /\ forall j fl, nth_error sh j = Some fl -> exists i p, fl = (Some i, Some p) /\
          forall si, shard_open sorted i p = Ok si -> forall s, (s < num_slots)%nat ->
          slot_left si s (content_of (posts j wss0) s) (content_of (posts j (wss0 ++ wss)) s)).
      { intros sh S. destruct (Old _ _ _ _ S Lv) as [L2 N2]. split; [exact L2|]. intros j fl Ej. destruct (N2 j fl Ej) as (z & iix & Ez & Hi & ->).
        destruct (Nv j z Ez) as (v & Ev & ->). destruct (A1 j v Ev) as (y & log & dn & rs & e & Ek & J & Fl & Sz & Eh & Jv & _). eapply Part; eauto. }
      inversion H4 as [f sh Wc S E|pre post sh Wc S E|f sh Wc S E|sh S E]; cbn [w_shards]; try (apply Still; exact S).
      destruct (Old _ _ _ _ S Lv) as [L2 N2]. split; [exact L2|]. intros j fl Ej. destruct (N2 j fl Ej) as (z & iix & Ez & Hi & C).
      destruct (Nv j z Ez) as (v & Ev & ->). destruct (A1 j v Ev) as (y & log & dn & rs & e & Ek & J & Fl & Sz & Eh & Jv & Er).
      rewrite (Er (ex_intro _ _ H2)), app_nil_r in Eh. clear Er rs. rewrite <- Eh in Jv.
      inversion C as [pos Wp E'|tp tq Wp E'].
      + assert (Ln : length (x_ind (v_shard v)) = num_slots) by apply Jv. rewrite Ln in Wp.
        destruct (flush_ind_cut num_slots 0 (v_shard v) _ _ pos Jv (B _ _ Ek) ltac:(lia) Wp) as (e' & x' & Jx & Px). rewrite <- app_assoc in Jx, Px.
        eapply Part with (rest := []); eauto; [rewrite app_nil_r; reflexivity|]. exists (e ++ e'), x'. split; assumption.
      + exists tp, (x_file (flush_ind (v_shard v))). split; [reflexivity|]. intros si Eo s Hs.
        destruct (flush_ind_spec _ _ _ Jv) as (log2 & J2 & Fl2).
        assert (Sz2 : (Z.of_nat (log_size log2) < 9223372036854775808)%Z) by (apply (shard_file_size _ _ _ J2); intros s'; apply (B _ _ Ek)).
        destruct tq as [|b tq].
        * rewrite app_nil_r in Wp. subst tp. pose proof (old_within sorted _ log2 _ [] (x_file (flush_ind (v_shard v))) si (posts j (wss0 ++ wss)) J2 Fl2 Sz2 Eo) as X.
          rewrite app_nil_r in X. split; [apply X; [|apply (B _ _ Ek)|exact Hs]; apply (Whole _ log2 []); rewrite app_nil_r; exact J2|]. right.
          destruct (shard_open_spec sorted (iix_bytes (x_ind (flush_ind (v_shard v))), x_file (flush_ind (v_shard v))) (posts j (wss0 ++ wss))) as (si' & Eo' & _ & _ & _ & Sp);
            [exists (flush_ind (v_shard v)), log2; auto|apply (B _ _ Ek)|].
          cbn [fst snd] in Eo'. assert (si' = si) as -> by congruence. apply Sp, Hs.
        * destruct (open_cut sorted (x_ind (flush_ind (v_shard v))) tp (b :: tq) (x_file (flush_ind (v_shard v)))) as [er Er]; [eapply shard_inv_table_ok; [exact J2|exact Sz2]|apply J2|exact Wp|discriminate|].
          rewrite Er in Eo. discriminate.
  Qed.

  (** * Queries of what is left *)
  Theorem append_stopped_sound sorted ss dk wss docs w1 fs dirs ix : sorts sorted -> history u c ss dk -> docs_fit (all_docs ss ++ docs) ->
    words_of (word_char u) (all_docs ss) wss -> words_of (word_char u) docs w1 -> append_stopped u dk docs fs -> dirs (cf_root c) = fs ->
    open_files sorted dirs (cf_root c) = Ok ix ->
    forall grow blot fuel ds0 ds, docs_wf ds0 -> query_get grow ix fuel blot ds0 = Ok ds ->
    exists seen rest, carriers (word_hash u) k m n 0 (wss ++ w1) (blot mod (N.of_nat n * 65536)) = seen ++ rest /\
      docs_keys ds = docs_keys ds0 ++ map (place_of (all_docs ss ++ docs)) seen.
  Proof.
    intros Hs Hi Fit Ww W1 Ap Ed Eo grow blot fuel ds0 ds Wd Eq. pose proof (fit_app _ _ Fit) as Fit0.
    destruct (history_inv u c k m n O Hn Hfl ss dk Hi Fit0 wss Ww) as (fn0 & fs0 & D).
    destruct (open_index_ok u c k m n O Hn sorted Hs _ wss fn0 fs0 dk D Ww Fit0) as (ix0 & E0 & _).
    pose proof (di_cfg _ _ _ _ _ _ _ _ _ _ D) as Ec. destruct (open_index_parts c k m n F sorted dk ix0 E0 Ec) as [P1 P2].
    destruct Ap as [x ws fs' Ex St]. subst fs'.
    pose proof (df_len _ Fit0) as L0. change (2 ^ 32) with 4294967296 in L0.
    destruct (open_start u c k m n O Hn Hfl _ _ _ _ _ D ltac:(lia)) as (x' & ws' & Ex' & I).
    rewrite Ex in Ex'. assert (x' = x) as -> by congruence. assert (ws' = ws) as -> by congruence. clear Ex'.
    assert (Xf : x_fnames x = ix_fnames ix0).
    { pose proof Ex as E. unfold open_indexer, Session.read_config in E. rewrite Ec, (check_ok c k m n O Hn) in E. cbn [bind] in E.
      destruct (_ <? 0)%Z; [discriminate|]. destruct (new_adder _ _); cbn [bind] in E; try discriminate. rewrite P2 in E. cbn [bind] in E.
      destruct (token_from_config _); cbn [bind] in E; try discriminate. destruct (for_shards _ _ _); cbn [bind] in E; try discriminate.
      destruct (start_workers _); cbn [bind] in E; try discriminate. injection E as <- _. reflexivity. }
    destruct (stop_records _ _ _ dk x ws docs _ I Fit St) as (fn1 & fs1 & Wf1 & X1 & R1 & Bg & Nm).
    destruct (stop_shards sorted _ _ _ _ dk x ws docs w1 _ D Ex I Fit Ww W1 St) as [Ln Sh].
    destruct (old_logs u c k m n F sorted _ wss fn0 fs0 dk x ws D Ex) as (logs & G & _).
    destruct (append_leaves u c k m n F dk docs x ws _ logs Ex Ec G (di_shards _ _ _ _ _ _ _ _ _ _ D) (ix_dmd ix0) P1 St) as (_ & Wc & _).
    assert (Ww1 : words_of (word_char u) (all_docs ss ++ docs) (wss ++ w1)) by (apply Forall2_app; assumption).
    unfold open_files in Eo. rewrite Wc, (cfg_back c k m n F V) in Eo. cbn [bind] in Eo.
    destruct (w_dmd (dirs (cf_root c))) as [g|] eqn:Eg; cbn [read_some bind] in Eo; [|discriminate].
    destruct (read_some read_fnames (w_fnames (dirs (cf_root c)))) as [fn| | |] eqn:En; cbn [bind] in Eo; try discriminate.
    rewrite (co_shards _ _ _ _ O), Nat2Z.id in Eo. assert ((Z.of_nat n <? 0)%Z = false) as X by lia. rewrite X in Eo. clear X.
    destruct (for_files (shard_open sorted) n (w_shards (dirs (cf_root c)))) as [ys| | |] eqn:Ey; cbn [bind] in Eo; try discriminate.
    assert (ix = MkIndex c g fn ys) as -> by congruence. clear Eo.
    destruct (for_files_nth _ n _ _ Ey) as [Ly Ny].
    assert (Fn : forall f p, rec_of fn1 f p -> forall q, fn_abs fn (f_fid f) = Ok q -> q = show_abs (spec_abs (fst p) (d_path (snd p)))).
    { intros f p Rf q Eq'. destruct Nm as [Nm|(pre & post & Ew & Nm)]; rewrite Nm in En.
      - rewrite P2 in En. assert (fn = x_fnames x) as -> by congruence.
        assert (Nq : forall q, node_of (all_docs ss) q <-> exists i, is_path (x_fnames x) i q).
        { intros q'. destruct (open_index_ok u c k m n O Hn sorted Hs _ wss fn0 fs0 dk D Ww Fit0) as (ix' & E' & _ & _ & _ & _ & Sk & _).
          assert (ix' = ix0) as -> by congruence. rewrite (nodes_of u c k m n _ _ _ _ _ D q'), Xf.
          split; intros [i P]; exists i; (eapply extends_path; [|exact P]); exists []; rewrite app_nil_r; congruence. }
        destruct (place_seen (x_fnames x) fn1 (all_docs ss) f p (xi_wf _ _ _ _ _ _ _ _ _ _ I) Wf1 X1 Nq Rf) as [A B].
        destruct (known_dec (all_docs ss) p) as [K|K]; [rewrite (A K) in Eq'|rewrite (B K) in Eq']; congruence.
      - cbn [read_some] in En. destruct (reload_spec fn1 Wf1) as (e & Ee & We & Se). rewrite Ew in Ee. destruct (fnames_cut _ _ _ Ee) as [Rn|[er Rn]]; [|congruence].
        assert (fn = e) as -> by congruence. destruct Rf as (_ & _ & P).
        assert (Pe : is_path e (f_fid f) (parts_of (spec_abs (fst p) (d_path (snd p))))) by (eapply extends_path; [|exact P]; exists []; rewrite app_nil_r; congruence).
        rewrite (fn_abs_path e _ _ We Pe), parts_show in Eq'. congruence. }
    pose proof (co_n _ _ _ _ O) as Pn.
    assert (Lsh : (QueryP.shard_of n blot < n)%nat) by (unfold QueryP.shard_of; assert (X : blot mod N.of_nat n < N.of_nat n) by (apply N.mod_lt; lia); clear - X; lia).
    assert (Lsl : (QueryP.slot_of n blot < num_slots)%nat) by (unfold QueryP.slot_of, num_slots; assert (X : blot / N.of_nat n mod 65536 < 65536) by (apply N.mod_lt; lia); clear - X; lia).
    destruct (Ny _ Lsh) as (iix & pos & si & Ef & Esi & Eop). destruct (Sh _ _ Ef) as (i' & p' & Ei & Rd). injection Ei as <- <-.
    specialize (Rd si Eop _ Lsl). destruct Rd as [Rd _]. rewrite (content_held u c k m n F _ _ _ _ Fit Ww1 Lsh Lsl) in Rd.
    set (ids := carriers (word_hash u) k m n 0 (wss ++ w1) (blot mod (N.of_nat n * 65536))).
    assert (Eids : held (wss ++ w1) (QueryP.slot_of n blot) (QueryP.shard_of n blot) = ids) by (unfold ids; rewrite (blot_slot n Pn blot); reflexivity).
    rewrite Eids in Rd.
    assert (Eqq : query_get grow (MkIndex c g fn ys) fuel blot ds0 =
      get_loop grow (MkIndex c g fn ys) fuel (negb (is_nil ds0)) (si_file si) (new_posts (nth (QueryP.slot_of n blot) (si_heads si) (-1)%Z)) ds0).
    { unfold query_get, get_address. cbn [ix_shards]. assert (u32 (nlen ys) = N.of_nat n) as -> by (unfold u32, nlen; rewrite Ly; apply N.mod_small; lia).
      destruct (N.eqb_spec (N.of_nat n) 0); [lia|]. cbn [bind]. fold (QueryP.shard_of n blot). rewrite Esi. reflexivity. }
    rewrite Eqq in Eq. clear Eqq.
    refine (get_loop_within grow (MkIndex c g fn ys) (place_of (all_docs ss ++ docs)) (si_file si) _ ids fuel _ ds0 ds Rd _ Wd Eq).
    intros d pl Hd Epl. apply carriers_in in Hd. pose proof (words_of_len _ _ _ Ww1) as Lw.
    eapply (place_right fn1 fs1 _ g fn c ys); eauto; [|unfold nlen in *]; lia.
  Qed.
  (** The shards of what is left. *)
  Lemma append_stopped_shards sorted ss dk wss docs w1 fs dirs ix : sorts sorted -> history u c ss dk -> docs_fit (all_docs ss ++ docs) ->
    words_of (word_char u) (all_docs ss) wss -> words_of (word_char u) docs w1 -> append_stopped u dk docs fs -> dirs (cf_root c) = fs ->
    open_files sorted dirs (cf_root c) = Ok ix ->
    length (ix_shards ix) = n /\ forall j si, nth_error (ix_shards ix) j = Some si -> forall s, (s < num_slots)%nat -> slot_left si s (held wss s j) (held (wss ++ w1) s j).
  Proof.
    intros Hs Hi Fit Ww W1 Ap Ed Eo. pose proof (fit_app _ _ Fit) as Fit0.
    destruct (history_inv u c k m n O Hn Hfl ss dk Hi Fit0 wss Ww) as (fn0 & fs0 & D).
    destruct (open_index_ok u c k m n O Hn sorted Hs _ wss fn0 fs0 dk D Ww Fit0) as (ix0 & E0 & _).
    pose proof (di_cfg _ _ _ _ _ _ _ _ _ _ D) as Ec. destruct (open_index_parts c k m n F sorted dk ix0 E0 Ec) as [P1 P2].
    destruct Ap as [x ws fs' Ex St]. subst fs'.
    pose proof (df_len _ Fit0) as L0. change (2 ^ 32) with 4294967296 in L0.
    destruct (open_start u c k m n O Hn Hfl _ _ _ _ _ D ltac:(lia)) as (x' & ws' & Ex' & I).
    rewrite Ex in Ex'. assert (x' = x) as -> by congruence. assert (ws' = ws) as -> by congruence. clear Ex'.
    destruct (stop_shards sorted _ _ _ _ dk x ws docs w1 _ D Ex I Fit Ww W1 St) as [Ln Sh].
    destruct (old_logs u c k m n F sorted _ wss fn0 fs0 dk x ws D Ex) as (logs & G & _).
    destruct (append_leaves u c k m n F dk docs x ws _ logs Ex Ec G (di_shards _ _ _ _ _ _ _ _ _ _ D) (ix_dmd ix0) P1 St) as (_ & Wc & _).
    assert (Ww1 : words_of (word_char u) (all_docs ss ++ docs) (wss ++ w1)) by (apply Forall2_app; assumption).
    unfold open_files in Eo. rewrite Wc, (cfg_back c k m n F V) in Eo. cbn [bind] in Eo.
    destruct (w_dmd (dirs (cf_root c))) as [g|] eqn:Eg; cbn [read_some bind] in Eo; [|discriminate].
    destruct (read_some read_fnames (w_fnames (dirs (cf_root c)))) as [fn| | |] eqn:En; cbn [bind] in Eo; try discriminate.
    rewrite (co_shards _ _ _ _ O), Nat2Z.id in Eo. assert ((Z.of_nat n <? 0)%Z = false) as X by lia. rewrite X in Eo. clear X.
    destruct (for_files (shard_open sorted) n (w_shards (dirs (cf_root c)))) as [ys| | |] eqn:Ey; cbn [bind] in Eo; try discriminate.
    assert (ix = MkIndex c g fn ys) as -> by congruence. clear Eo. cbn [ix_shards].
    destruct (for_files_nth _ n _ _ Ey) as [Ly Ny]. split; [exact Ly|]. intros j si Esi s Hs'.
    assert (Lj : (j < n)%nat) by (rewrite <- Ly; apply nth_error_Some; congruence).
    destruct (Ny _ Lj) as (iix & pos & si' & Ef & Esi' & Eop). assert (si' = si) as -> by congruence. destruct (Sh _ _ Ef) as (i' & p' & Ei & Rd). injection Ei as <- <-.
    specialize (Rd si Eop s Hs'). rewrite (content_held u c k m n F _ _ _ _ Fit Ww1 Lj Hs'), (content_held u c k m n F _ _ _ _ Fit0 Ww Lj Hs') in Rd. exact Rd.
  Qed.
End A.
