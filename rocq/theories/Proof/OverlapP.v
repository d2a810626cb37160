(** Two appending sessions at a time. *)
From Verif Require Import Model.Base Model.Address Model.Utf8 Model.Token Model.Blotter Model.Post Model.Poster Model.Shatter Model.Shard Model.Dmd Model.Fnames Model.Conc Model.Config Model.Run Model.Index Model.Query Model.Session Model.Overlap.
From Verif Require Import Spec.Text Spec.Fingerprint Spec.Configs Spec.Paths Spec.Querying Spec.History.
From Verif Require Import Proof.Tactics Proof.PathP Proof.DmdP Proof.FnamesP Proof.FnamesP2 Proof.ShardP Proof.ConcRun Proof.QueryP Proof.SessionP Proof.SessionP2.
Local Open Scope N_scope.

Lemma behind_length xs : forall files, length (behind_shards xs files) = length xs.
Proof. induction xs as [|x xs IH]; intros [|[i p] r]; cbn [behind_shards length]; auto. Qed.

(** What the adder does depends on its file only by appending to it. *)
Lemma add_file a f d a' f' i : adder_add (a, Some f) d = ((a', f'), i) ->
  exists g, forall f2, adder_add (a, Some f2) d = ((a', Some (f2 ++ g)), i).
Proof.
  unfold adder_add. destruct (u32 (nlen (a_buf a)) =? a_rate a).
  - unfold adder_flush, file_append. intros E. injection E as <- <- <-. exists (concat (flush_writes a)). reflexivity.
  - intros E. injection E as <- <- <-. exists []. intros f2. rewrite app_nil_r. reflexivity.
Qed.
Lemma doc_ids_file docs : forall fn a f fn' a' f' ids, doc_ids fn (a, Some f) docs = Ok (fn', (a', f'), ids) ->
  exists g, forall f2, doc_ids fn (a, Some f2) docs = Ok (fn', (a', Some (f2 ++ g)), ids).
Proof.
  induction docs as [|[cwd d] docs IH]; intros fn a f fn' a' f' ids; cbn [doc_ids].
  - intros E. injection E as <- <- <- <-. exists []. intros f2. rewrite app_nil_r. reflexivity.
  - unfold doc2id. destruct (add_path cwd fn (d_path d)) as [[fn1 fid]| | |]; try discriminate. cbn [bind].
    destruct (adder_add (a, Some f) (MkFields fid (d_start d) (d_end d))) as [[a1 f1] i] eqn:E1. destruct (add_file _ _ _ _ _ _ E1) as [g1 G1].
    rewrite G1 in E1. assert (f1 = Some (f ++ g1)) as -> by congruence. cbn [bind].
    destruct (doc_ids fn1 (a1, Some (f ++ g1)) docs) as [[[fn2 [a2 f2]] is]| | |] eqn:E2; try discriminate. cbn [bind].
    destruct (IH _ _ _ _ _ _ _ E2) as [g2 G2]. intros E. injection E as <- <- <- <-.
    exists (g1 ++ g2). intros f3. rewrite G1. cbn [bind]. rewrite G2. cbn [bind]. rewrite <- app_assoc. reflexivity.
Qed.
Lemma close_file a f : exists g, adder_close (a, Some f) = Some (f ++ g).
Proof.
  unfold adder_close. destruct (a_buf a); [exists []; rewrite app_nil_r; reflexivity|]. unfold adder_flush, file_append. cbn [snd]. eexists. reflexivity.
Qed.
Lemma lookup_app f g did r : dmd_lookup f did = Ok r -> dmd_lookup (f ++ g) did = Ok r.
Proof.
  unfold dmd_lookup, read_full, pread. assert ((Z.of_N did * 12 <? 0)%Z = false) as -> by lia. change (12 <=? 0)%Z with false. cbv iota.
  unfold zlen. rewrite app_length. destruct (Z.leb_spec (Z.of_N did * 12 + 12) (Z.of_nat (length f))) as [L|L].
  - assert ((Z.of_N did * 12 + 12 <=? Z.of_nat (length f + length g))%Z = true) as -> by lia. cbn [bind].
    rewrite skipn_app, firstn_app, skipn_length.
    replace (Z.to_nat 12 - (length f - Z.to_nat (Z.of_N did * 12)))%nat with 0%nat by lia.
    rewrite firstn_O, app_nil_r. auto.
  - destruct (_ <? _)%Z; discriminate.
Qed.

Lemma show_inj a b : comps_ok a -> comps_ok b -> show_abs a = show_abs b -> a = b.
Proof. intros Ha Hb E. apply parts_of_inj; auto. rewrite <- !path_parts_show by assumption. congruence. Qed.

(** Only known paths are shown. *)
Lemma shown_nodes fn docs : wf fn -> (forall i q, is_path fn i q -> node_of docs q) -> forall v path, fn_abs fn v = Ok path ->
  exists q, comps_ok q /\ path = show_abs q /\ (q = [] \/ exists p suf, In p docs /\ spec_abs (fst p) (d_path (snd p)) = q ++ suf).
Proof.
  intros W N v path E. destruct (N.lt_ge_cases v (nlen fn)) as [L|L].
  - destruct (is_path_total fn W v L) as (cs & P & _). rewrite (fn_abs_path fn v cs W P) in E. injection E as <-.
    destruct (N v cs P) as [->|(p & suf & Hp & Es)]; [exists []; split; [constructor|]; split; [reflexivity|left; reflexivity]|].
    rewrite tree_path_parts in Es. pose proof (spec_abs_ok (fst p) (d_path (snd p))) as C.
    destruct (spec_abs (fst p) (d_path (snd p))) as [|x l] eqn:Ea; cbn [parts_of] in Es.
    + exists []. split; [constructor|]. split; [|left; reflexivity]. destruct cs as [|y cs]; [reflexivity|]. destruct cs; [|discriminate]. injection Es as <- _. reflexivity.
    + assert (Cc : comps_ok cs) by (rewrite Es in C; apply Forall_app in C; apply C).
      exists cs. split; [exact Cc|]. split; [|right; exists p, suf; rewrite Ea; auto].
      rewrite <- parts_show. destruct cs; [reflexivity|]. reflexivity.
  - exfalso. unfold fn_abs in E. cbn [abs_walk] in E.
    assert (nth_error fn (N.to_nat v) = None) as X by (apply nth_error_None; unfold nlen in L; lia). rewrite X in E. discriminate.
Qed.

Lemma open_dmds dk x ws : open_indexer dk = Ok (x, ws) -> snd (x_dmds x) = k_dmd dk.
Proof.
  unfold open_indexer. destruct (read_config dk) as [c| | |]; try discriminate. cbn [bind]. destruct (_ <? 0)%Z; [discriminate|].
  destruct (new_adder _ _) as [a| | |]; try discriminate. cbn [bind]. destruct (read_some _ _) as [fn| | |]; try discriminate. cbn [bind].
  destruct (token_from_config _) as [t| | |]; try discriminate. cbn [bind]. destruct (for_shards _ _ _) as [xs| | |]; try discriminate. cbn [bind].
  destruct (start_workers _) as [w| | |]; try discriminate. cbn [bind]. intros E. injection E as <- <-. reflexivity.
Qed.

Section O.
  Variables (u : unicode) (c : config) (k m n : nat).
  Hypothesis F : cfg_full c k m n.

  Lemma overlap_files ss dk docs1 docs2 dk2 : history u c ss dk -> docs_fit (all_docs ss ++ docs1) -> docs_fit (all_docs ss ++ docs2) ->
    overlap u dk docs1 docs2 dk2 ->
    exists fs1 fn1 fn2 g, Forall2 (rec_of fn1) fs1 (all_docs ss ++ docs1) /\ wf fn1 /\ wf fn2 /\
      k_dmd dk2 = Some (render_dmd (zero_fields :: fs1) ++ g) /\ k_fnames dk2 = Some (fn_write fn2) /\
      (forall i q, is_path fn2 i q -> node_of (all_docs ss ++ docs2) q).
  Proof.
    intros Hi Fit1 Fit2 [x ws dk1 dk2' Eo S1 S2]. destruct F as [O Hn Hf].
    destruct (words_total u (all_docs ss)) as [w0 W0]. destruct (words_total u docs1) as [w1 W1]. destruct (words_total u docs2) as [w2 W2].
    destruct (history_inv u c k m n O Hn Hf ss dk Hi (fit_app _ _ Fit1) w0 W0) as (fn & fs & D).
    pose proof (df_len _ (fit_app _ _ Fit1)) as L. change (2 ^ 32) with 4294967296 in L.
    destruct (open_start u c k m n O Hn Hf _ _ _ _ _ D ltac:(lia)) as (x' & ws' & Eo' & I). rewrite Eo in Eo'. injection Eo' as <- <-.
    destruct (session_inv u c k m n O Hn _ x ws _ _ _ docs1 w1 eq_refl I Fit1 W0 W1) as (A1 & _).
    destruct (A1 dk1 S1) as (fn1 & fs1 & D1).
    (* the other session, had it been alone *)
    pose proof (df_ok _ Fit2) as FO. apply Forall_app in FO. destruct FO as [_ FO].
    pose proof (df_len _ Fit2) as FL. pose proof (df_room _ Fit2) as FR. change (2 ^ 32) with 4294967296 in *.
    assert (PR : forall a b, path_room (a ++ b) = path_room a + path_room b).
    { induction a as [|p a IH]; intros b; cbn [app path_room]; [reflexivity|]. rewrite IH. lia. }
    rewrite PR in FR. pose proof (recs_len _ _ _ (xi_recs _ _ _ _ _ _ _ _ _ _ I)) as Lf. pose proof (xi_room _ _ _ _ _ _ _ _ _ _ I) as Rm.
    unfold nlen in FL. rewrite app_length in FL.
    destruct (doc_ids_spec docs2 (x_fnames x) (x_dmds x) (zero_fields :: fs) (xi_wf _ _ _ _ _ _ _ _ _ _ I)) as (fn2 & dm & fs2 & E1 & Wf2 & X2 & _ & _ & _ & Nd).
    { lia. } { exact FO. } { apply (xi_dmds _ _ _ _ _ _ _ _ _ _ I). } { unfold nlen. cbn [length]. lia. }
    inversion S2 as [x2 ws2 fn2' dm2 ids st j Es2 Ed Est Em]; subst. injection Es2 as <- <-. cbn [behind x_fnames x_dmds x_cfg] in *.
    destruct (x_dmds x) as [a f] eqn:Ex. cbn [fst] in *.
    pose proof (open_dmds _ _ _ Eo) as Edm. rewrite Ex in Edm. cbn [snd] in Edm. rewrite (di_dmd _ _ _ _ _ _ _ _ _ _ D) in Edm. subst f.
    destruct dm as [a' f']. destruct (doc_ids_file _ _ _ _ _ _ _ _ E1) as [g G].
    rewrite (di_dmd _ _ _ _ _ _ _ _ _ _ D1) in Ed. unfold dmd_file in *. rewrite G in Ed. injection Ed as <- <- <-.
    destruct (close_file a' (render_dmd (zero_fields :: fs1) ++ g)) as [g' G'].
    exists fs1, fn1, fn2, (g ++ g'). split; [exact (di_recs _ _ _ _ _ _ _ _ _ _ D1)|]. split; [exact (di_wf _ _ _ _ _ _ _ _ _ _ D1)|].
    split; [exact Wf2|]. split; [rewrite app_assoc; exact G'|]. split; [reflexivity|].
    intros i q Hq. assert (Mono : forall l, node_of l q -> incl l (all_docs ss ++ docs2) -> node_of (all_docs ss ++ docs2) q).
    { intros l [->|(p & suf & Hp & Es')] Hl; [left; reflexivity|]. right. exists p, suf. auto. }
    destruct (Nd i q Hq) as [Q|Q]; [apply (xi_nodes _ _ _ _ _ _ _ _ _ _ I), Mono in Q|apply Mono in Q]; auto; [apply incl_appl|apply incl_appr]; apply incl_refl.
  Qed.

  (** Nothing but the documents of the index and those of the session that closes last. *)
  Theorem overlap_paths ss dk docs1 docs2 dk2 sorted ix : history u c ss dk -> docs_fit (all_docs ss ++ docs1) -> docs_fit (all_docs ss ++ docs2) ->
    overlap u dk docs1 docs2 dk2 -> open_index sorted dk2 = Ok ix ->
    forall did path s e, docid2doc ix did = Ok (path, s, e) ->
    exists q, comps_ok q /\ path = show_abs q /\ (q = [] \/ exists p suf, In p (all_docs ss ++ docs2) /\ spec_abs (fst p) (d_path (snd p)) = q ++ suf).
  Proof.
    intros Hi F1 F2 Ov Eo did path s e E. destruct (overlap_files _ _ _ _ _ Hi F1 F2 Ov) as (fs1 & fn1 & fn2 & g & _ & _ & W2 & _ & Ef & Nd).
    unfold open_index in Eo. destruct (read_config dk2) as [c'| | |]; try discriminate. cbn [bind] in Eo.
    destruct (read_some Ok (k_dmd dk2)) as [dm| | |]; try discriminate. cbn [bind] in Eo. rewrite Ef in Eo. cbn [read_some] in Eo.
    destruct (reload_spec fn2 W2) as (fn' & E1 & W' & Sk). rewrite E1 in Eo. cbn [bind] in Eo. destruct (_ <? 0)%Z; [discriminate|].
    destruct (for_shards _ _ _) as [xs| | |]; try discriminate. cbn [bind] in Eo. injection Eo as <-.
    unfold docid2doc in E. cbn [ix_dmd ix_fnames] in E. destruct (dmd_lookup dm did) as [f| | |]; try discriminate. cbn [bind] in E.
    rewrite (fn_abs_skel fn' fn2) in E by exact Sk. destruct (fn_abs fn2 (f_fid f)) as [p| | |] eqn:Ep; try discriminate. cbn [bind] in E. injection E as <- <- <-.
    exact (shown_nodes fn2 _ W2 Nd _ _ Ep).
  Qed.

  Lemma nth_forall2 {A B} (P : A -> B -> Prop) l l' : Forall2 P l l' -> forall i b, nth_error l' i = Some b -> exists a, nth_error l i = Some a /\ P a b.
  Proof.
    induction 1 as [|a b l l' Pab Fa IH]; intros [|i] y E; cbn [nth_error] in *; try discriminate; eauto.
    assert (b = y) as <- by congruence. eauto.
  Qed.
  (** The numbers of the documents of the first session give their places still. *)
  Theorem overlap_places ss dk docs1 docs2 dk2 sorted ix : history u c ss dk -> docs_fit (all_docs ss ++ docs1) -> docs_fit (all_docs ss ++ docs2) ->
    overlap u dk docs1 docs2 dk2 -> open_index sorted dk2 = Ok ix ->
    forall i p path s e, nth_error (all_docs ss ++ docs1) i = Some p -> docid2doc ix (N.of_nat (S i)) = Ok (path, s, e) ->
    s = d_start (snd p) /\ e = d_end (snd p).
  Proof.
    intros Hi F1 F2 Ov Eo i p path s e Ei E. destruct (overlap_files _ _ _ _ _ Hi F1 F2 Ov) as (fs1 & fn1 & fn2 & g & Rc & W1 & _ & Ed & _).
    unfold open_index in Eo. destruct (read_config dk2) as [c'| | |]; try discriminate. cbn [bind] in Eo. rewrite Ed in Eo. cbn [read_some bind] in Eo.
    remember (render_dmd (zero_fields :: fs1)) as rd eqn:Erd.
    destruct (read_some read_fnames (k_fnames dk2)) as [fn'| | |]; try discriminate. cbn [bind] in Eo. destruct (_ <? 0)%Z; [discriminate|].
    destruct (for_shards _ _ _) as [xs| | |]; try discriminate. cbn [bind] in Eo. injection Eo as <-.
    unfold docid2doc in E. cbn [ix_dmd ix_fnames] in E. destruct (nth_forall2 _ _ _ Rc i p Ei) as (f & Ef & A & B & C).
    assert (Wf : Forall wf_fields fs1).
    { pose proof (df_ok _ F1) as FO. clear -Rc W1 FO. change (2 ^ 32) with 4294967296 in *. induction Rc as [|a p l l' (A & B & C) Rc IH]; [constructor|].
      inversion FO as [|? ? (O1 & O2 & O3) FO']; subst. change (2 ^ 32) with 4294967296 in *. constructor; [|auto]. split; [|split].
      - pose proof (is_path_lt fn1 _ _ W1 C). pose proof (wf_size fn1 W1). lia.
      - rewrite A. exact O2.
      - rewrite B. exact O3. }
    rewrite Erd, (lookup_app _ g _ f (dmd_lookup_file fs1 i f Wf Ef)) in E. cbn [bind] in E.
    destruct (fn_abs fn' (f_fid f)) as [q| | |]; try discriminate. cbn [bind] in E. injection E as <- <- <-. auto.
  Qed.
  (** Both sessions give the same numbers. *)
  Theorem overlap_ids ss dk docs1 docs2 x ws dk1 : history u c ss dk -> docs_fit (all_docs ss ++ docs1) -> docs_fit (all_docs ss ++ docs2) ->
    open_indexer dk = Ok (x, ws) -> session u (Ok (x, ws)) docs1 dk1 ->
    exists r1 r2, doc_ids (x_fnames x) (x_dmds x) docs1 = Ok (r1, map N.of_nat (seq (S (length (all_docs ss))) (length docs1))) /\
      doc_ids (x_fnames x) (x_dmds (behind x dk1)) docs2 = Ok (r2, map N.of_nat (seq (S (length (all_docs ss))) (length docs2))) /\
      adder_last (fst (x_dmds (behind x dk1))) = nlen (all_docs ss) /\
      ((0 < cf_numshatters c)%Z -> exists dk2, session u (Ok (behind x dk1, ws)) docs2 dk2).
  Proof.
    intros Hi Fit1 Fit2 Eo S1. destruct F as [O Hn Hf].
    destruct (words_total u (all_docs ss)) as [w0 W0]. destruct (words_total u docs1) as [w1 W1]. destruct (words_total u docs2) as [w2 W2].
    destruct (history_inv u c k m n O Hn Hf ss dk Hi (fit_app _ _ Fit1) w0 W0) as (fn & fs & D).
    pose proof (df_len _ Fit2) as L2. pose proof (df_len _ (fit_app _ _ Fit1)) as L. change (2 ^ 32) with 4294967296 in L, L2.
    destruct (open_start u c k m n O Hn Hf _ _ _ _ _ D ltac:(lia)) as (x' & ws' & Eo' & I). rewrite Eo in Eo'. injection Eo' as <- <-.
    destruct (session_inv u c k m n O Hn _ x ws _ _ _ docs1 w1 eq_refl I Fit1 W0 W1) as (A1 & _ & (f1 & d1 & B1) & _).
    destruct (session_inv u c k m n O Hn _ x ws _ _ _ docs2 w2 eq_refl I Fit2 W0 W2) as (_ & _ & (f2 & d2 & B2) & C2).
    destruct (A1 dk1 S1) as (fn1 & fs1 & D1).
    assert (G : exists d3, doc_ids (x_fnames x) (x_dmds (behind x dk1)) docs2 = Ok (f2, d3, map N.of_nat (seq (S (length (all_docs ss))) (length docs2)))).
    { unfold behind. cbn [x_dmds]. pose proof (open_dmds _ _ _ Eo) as Edm. rewrite (di_dmd _ _ _ _ _ _ _ _ _ _ D) in Edm. unfold dmd_file in Edm.
      destruct (x_dmds x) as [a f]. cbn [fst snd] in *. subst f. destruct d2 as [a2 g2]. destruct (doc_ids_file _ _ _ _ _ _ _ _ B2) as [g G].
      rewrite (di_dmd _ _ _ _ _ _ _ _ _ _ D1). unfold dmd_file. rewrite G. eexists. reflexivity. }
    destruct G as [d3 G]. exists (f1, d1), (f2, d3). split; [exact B1|]. split; [exact G|]. split; [exact C2|].
    intros Hs. destruct (completes u c k m n ws (nlen (all_docs ss)) (requests docs2) (behind_shards (x_shards x) (k_shards dk1)) O) as (st & St & (_ & Em & _)); auto.
    { change (2 ^ 32) with 4294967296. lia. } { apply (xi_ws _ _ _ _ _ _ _ _ _ _ I). }
    { unfold requests, nlen in *. rewrite map_length. rewrite app_length in L2. change (2 ^ 32) with 4294967296. lia. }
    { rewrite behind_length. apply (xi_shards _ _ _ _ _ _ _ _ _ _ I). }
    eexists. econstructor; [reflexivity|exact G| |exact Em]. unfold behind. cbn [x_dmds x_cfg x_shards fst]. rewrite C2, (xi_cfg _ _ _ _ _ _ _ _ _ _ I). exact St.
  Qed.
  Theorem overlap_exists ss dk docs1 docs2 : history u c ss dk -> docs_fit (all_docs ss ++ docs1) -> docs_fit (all_docs ss ++ docs2) ->
    (0 < cf_numshatters c)%Z -> exists dk2, overlap u dk docs1 docs2 dk2.
  Proof.
    intros Hi Fit1 Fit2 Hs. pose proof F as [O Hn Hf].
    destruct (words_total u (all_docs ss)) as [w0 W0]. destruct (words_total u docs1) as [w1 W1].
    destruct (history_inv u c k m n O Hn Hf ss dk Hi (fit_app _ _ Fit1) w0 W0) as (fn & fs & D).
    pose proof (df_len _ (fit_app _ _ Fit1)) as L. change (2 ^ 32) with 4294967296 in L.
    destruct (open_start u c k m n O Hn Hf _ _ _ _ _ D ltac:(lia)) as (x & ws & Eo & I).
    destruct (session_inv u c k m n O Hn _ x ws _ _ _ docs1 w1 eq_refl I Fit1 W0 W1) as (_ & A & _). destruct (A Hs) as [dk1 S1].
    destruct (overlap_ids _ _ _ _ _ _ _ Hi Fit1 Fit2 Eo S1) as (r1 & r2 & _ & _ & _ & X). destruct (X Hs) as [dk2 S2].
    exists dk2. econstructor; eauto.
  Qed.
End O.

(** What a query shows comes from [docid2doc]. *)
Lemma get_loop_from grow ix file fuel : forall ps ds ds', docs_wf ds -> get_loop grow ix fuel false file ps ds = Ok ds' ->
  forall kx, In kx (docs_keys ds') -> In kx (docs_keys ds) \/ exists did, docid2doc ix did = Ok kx.
Proof.
  induction fuel as [|fuel IH]; intros ps ds ds' W E kx Hk; cbn [get_loop andb] in E; [discriminate|].
  destruct (posts_next ps file) as [[did ps']|[| ]| |]; try discriminate.
  - destruct (docid2doc ix did) as [[[path s] e]| | |] eqn:Ed; try discriminate. cbn [bind] in E.
    destruct (put_doc_free grow ds path s e W) as (ds1 & E1 & W1 & L1 & _). rewrite E1 in E. cbn [bind] in E.
    destruct (IH _ _ _ W1 E kx Hk) as [K|K]; [|right; exact K]. unfold docs_keys in *. rewrite L1, map_app, in_app_iff in K.
    destruct K as [K|[K|[]]]; [left; exact K|]. right. exists did. rewrite Ed. unfold doc_key in K. cbn [d_path d_start d_end] in K. congruence.
  - injection E as <-. left. exact Hk.
Qed.
Lemma query_from grow ix fuel blot ds : query_get grow ix fuel blot None = Ok ds -> forall kx, In kx (docs_keys ds) -> exists did, docid2doc ix did = Ok kx.
Proof.
  unfold query_get, get_address. destruct (_ =? 0); [discriminate|]. cbn [bind]. destruct (nth_error (ix_shards ix) _) as [si|]; [|discriminate].
  cbn [is_nil negb]. intros E kx Hk. destruct (get_loop_from _ _ _ _ _ None _ I E kx Hk) as [[]|K]; exact K.
Qed.
