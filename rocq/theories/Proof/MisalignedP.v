(** Appending after an append session whose Close failed in the middle of a document record. *)
From Verif Require Import Model.Base Model.Address Model.Varint Model.Utf8 Model.Token Model.Blotter Model.Post Model.Poster Model.Shatter Model.Shard Model.Dmd Model.Fnames Model.Conc Model.Config Model.Json Model.Run Model.Index Model.Query Model.Session Model.Crash Model.CloseFault.
From Verif Require Import Spec.Text Spec.Fingerprint Spec.Configs Spec.Posting Spec.Postings Spec.Paths Spec.Reading Spec.Querying Spec.History Spec.Live.
From Verif Require Import Proof.Tactics Proof.VarintP Proof.TokenP Proof.BlotterP Proof.ShatterP Proof.IndexP2 Proof.DmdP Proof.FnamesP Proof.FnamesP2 Proof.PosterP Proof.ShardP Proof.ConcP Proof.ConcRun Proof.QueryP Proof.JsonP Proof.ConfigP Proof.SessionP Proof.SessionP2 Proof.JsonP2 Proof.CutP Proof.CrashP Proof.KeepP Proof.CrashP2 Proof.CrashP3 Proof.LiveP Proof.LinkCutP Proof.LinkCutP2 Proof.DocidP.
From Coq Require Import Lia.
Local Open Scope N_scope.

(** * The posts of one document stay in memory *)
Lemma young_file D x p : young D x -> post_docid p = D -> x_file (serve_post x p) = x_file x.
Proof.
  intros Y E. unfold serve_post, serve_post_w. rewrite E. set (h := N.to_nat (serve_slot p)).
  destruct (nth_error (x_ind x) h) as [po|] eqn:Eh; [|reflexivity].
  destruct ((p_current po =? D) && negb (p_total po =? 0)) eqn:Ec.
  - assert (add_post po D (x_file x) = (po, [])) as -> by (unfold add_post; rewrite Ec; reflexivity). reflexivity.
  - destruct (Y h po Eh) as [(Y1 & Y2)|(Y1 & Y2 & _)].
    + destruct (add_young D po (x_file x) Y1 Y2 Ec) as (p' & -> & _). reflexivity.
    + rewrite Y1, N.eqb_refl in Ec. destruct (N.eqb_spec (p_total po) 0); [contradiction|discriminate].
Qed.
Lemma young_files D ps : forall x, Forall (fun p => post_docid p = D) ps -> young D x -> x_file (serve_batch x ps) = x_file x.
Proof.
  induction ps as [|p ps IH]; intros x F Y; cbn [serve_batch fold_left]; [reflexivity|]. inv F.
  destruct (serve_young _ x p Y eq_refl) as (Y1 & _). change (fold_left serve_post ps (serve_post x p)) with (serve_batch (serve_post x p) ps).
  rewrite IH by assumption. eapply young_file; eauto.
Qed.

(** * Adding one record to a file, and failing to write it *)
Lemma add_empty a f d : a_buf a = [] -> adder_add (a, Some f) d = ((MkAdder (u32 (a_flushed a)) (a_rate a) [d], Some f), add32 0 (u32 (a_flushed a))) \/
  adder_add (a, Some f) d = ((MkAdder (a_flushed a) (a_rate a) [d], Some f), add32 0 (a_flushed a)).
Proof.
  intros E. unfold adder_add. rewrite E. change (u32 (nlen (@nil fields))) with 0. destruct (0 =? a_rate a).
  - left. unfold adder_flush, flush_writes. rewrite E. cbn [map concat file_append a_buf a_flushed a_rate app]. change (u32 (nlen (@nil fields))) with 0.
    rewrite app_nil_r. unfold add32 at 1 3. rewrite N.add_0_r. reflexivity.
  - right. rewrite E. reflexivity.
Qed.
Lemma add_one a f d : a_buf a = [] -> exists a' i, adder_add (a, Some f) d = ((a', Some f), i) /\ a_buf a' = [d].
Proof. intros E. destruct (add_empty a f d E) as [X|X]; rewrite X; eauto. Qed.
Lemma appends_none ws : forall f o, appends_c ws f (repeat None (length ws) ++ o) = (f ++ concat ws, o, true).
Proof.
  induction ws as [|w ws IH]; intros f o; cbn [length repeat app appends_c call concat]; [rewrite app_nil_r; reflexivity|].
  rewrite IH, <- app_assoc. reflexivity.
Qed.
Lemma torn_lookup all r1 r2 : wf_fields r1 -> wf_fields r2 ->
  dmd_lookup (render_dmd all ++ firstn 8 (enc_fields r1) ++ enc_fields r2) (nlen all) = Ok (MkFields (f_fid r1) (f_start r1) (f_fid r2)).
Proof.
  intros W1 W2. assert (E : firstn 8 (enc_fields r1) ++ enc_fields r2 = enc_fields (MkFields (f_fid r1) (f_start r1) (f_fid r2)) ++ put_be32 (f_start r2) ++ put_be32 (f_end r2)).
  { unfold enc_fields. reflexivity. }
  rewrite E, app_assoc. apply lookup_longer.
  assert (E2 : render_dmd all ++ enc_fields (MkFields (f_fid r1) (f_start r1) (f_fid r2)) = render_dmd (all ++ [MkFields (f_fid r1) (f_start r1) (f_fid r2)])).
  { rewrite render_dmd_app. unfold render_dmd at 3. cbn [map concat]. rewrite app_nil_r. reflexivity. }
  rewrite E2. apply dmd_lookup_render. destruct W1 as (A & B & _). destruct W2 as (C & _). repeat split; assumption.
Qed.
Lemma room_app a b : path_room (a ++ b) = path_room a + path_room b.
Proof. induction a as [|p a IH]; cbn [app path_room]; [reflexivity|]. rewrite IH. lia. Qed.

(** The places of an index whose document after the first [docs] is taken for [p]. *)
Definition misplaced (docs : list (bytes * doc)) (p : bytes * doc) (e : N) (d : N) : bytes * N * N :=
  if d =? nlen docs + 1 then (show_abs (spec_abs (fst p) (d_path (snd p))), d_start (snd p), e) else place_of docs d.

Section A.
  Variables (u : unicode) (c : config) (k m n : nat).
  Hypothesis F : cfg_full c k m n.
  Let O : cfg_ok c k m n := cu_ok _ _ _ _ F.
  Let Hn : N.of_nat n < 65536 := cu_n _ _ _ _ F.
  Let Hfl : (1 <= cf_flush c)%Z := cu_flush _ _ _ _ F.

  Theorem append_misaligned ss dk p q wss wp wq : history u c ss dk -> docs_fit (all_docs ss ++ [p; q]) -> (0 < cf_numshatters c)%Z ->
    words_of (word_char u) (all_docs ss) wss -> words_of (word_char u) [p] [wp] -> words_of (word_char u) [q] [wq] ->
    exists o dk1, closed_session u (open_indexer dk) (files_of dk) [p] o (repeat [] n) (files_of dk1) false /\ k_cfg dk1 = Some c /\
      (exists dk2, session u (open_indexer dk1) [q] dk2) /\
      forall dk2, session u (open_indexer dk1) [q] dk2 -> forall sorted, sorts sorted ->
      exists ix e, open_index sorted dk2 = Ok ix /\ index_ok ix n (held (word_hash u) k m n (wss ++ [wq])) (misplaced (all_docs ss) p e).
  Proof.
    intros Hi Fit Hsh W0 Wp Wq. set (docs0 := all_docs ss) in *.
    assert (Fitp : docs_fit (docs0 ++ [p])) by (apply (fit_app _ [q]); rewrite <- app_assoc; exact Fit).
    assert (Fit0 : docs_fit docs0) by (eapply fit_app, Fit).
    pose proof (df_ok _ Fit) as FO. apply Forall_app in FO. destruct FO as [_ FO]. inversion FO as [|? ? Op FO']; subst. inversion FO' as [|? ? Oq _]; subst.
    pose proof (df_len _ Fit) as L2. pose proof (df_room _ Fit) as R2. rewrite room_app in R2. cbn [path_room] in R2. change (2 ^ 32) with 4294967296 in L2, R2.
    assert (L0 : nlen docs0 + 2 < 4294967295) by (unfold nlen in *; rewrite app_length in L2; cbn [length] in L2; lia). clear L2.
    assert (Fitq : docs_fit (docs0 ++ [q])).
    { destruct Fit as [A B C]. constructor.
      - apply Forall_app in A. apply Forall_app. split; [apply A|]. constructor; [exact Oq|constructor].
      - unfold nlen in *. rewrite app_length in *. cbn [length] in *. lia.
      - rewrite room_app in *. cbn [path_room] in *. lia. }
    destruct (history_inv u c k m n O Hn Hfl ss dk Hi Fit0 wss W0) as (fn0 & fs0 & D). fold docs0 in D.
    pose proof (recs_len _ _ _ (di_recs _ _ _ _ _ _ _ _ _ _ D)) as Lf0.
    destruct (open_start u c k m n O Hn Hfl _ _ _ _ _ D ltac:(lia)) as (x & wk & E & I).
    pose proof (xi_cfg _ _ _ _ _ _ _ _ _ _ I) as Xc.
    (* the parts of the opened index *)
    pose proof E as E'. unfold open_indexer, read_config in E'. rewrite (di_cfg _ _ _ _ _ _ _ _ _ _ D), (check_ok c k m n O Hn) in E'. cbn [bind] in E'.
    rewrite (numshards_pos c k m n O Hn), (di_dmd _ _ _ _ _ _ _ _ _ _ D) in E'.
    destruct (new_adder_reopen (cf_flush c) fs0 Hfl) as (a & Ea & Ia & Ba & Fa); [unfold nlen in *; lia|]. rewrite Ea in E'. cbn [bind] in E'.
    rewrite (di_fnames _ _ _ _ _ _ _ _ _ _ D) in E'. cbn [read_some] in E'.
    destruct (reload_spec fn0 (di_wf _ _ _ _ _ _ _ _ _ _ D)) as (fn0' & Efn0 & Wfn0 & Sfn0). rewrite Efn0 in E'. cbn [bind] in E'.
    rewrite (token_ok c k m n O) in E'. cbn [bind] in E'.
    destruct (cfg_nat _ _ _ _ O) as (En & Es & Hk & Hm & Hn0). rewrite En in E'.
    destruct (for_shards shard_append n (k_shards dk)) as [xs0| | |] eqn:Exs; cbn [bind] in E'; try discriminate.
    destruct (start_workers c) as [wk'| | |] eqn:Ewk; cbn [bind] in E'; try discriminate. injection E' as <- <-.
    cbn [x_cfg x_dmds x_fnames x_shards] in *.
    (* the document p *)
    destruct p as [cwdp dp]. destruct q as [cwdq dq]. cbn [fst snd] in *.
    destruct Op as (Op1 & Op2 & Op3). destruct Oq as (Oq1 & Oq2 & Oq3). cbn [fst snd] in *. change (2 ^ 32) with 4294967296 in Op2, Op3, Oq2, Oq3.
    assert (Rm0 : nlen fn0' <= 1 + path_room docs0) by exact (xi_room _ _ _ _ _ _ _ _ _ _ I).
    destruct (add_path_spec cwdp fn0' (d_path dp) Op1 Wfn0) as (fn1 & fidp & Ep & Wfn1 & X1 & P1 & Rm1); [cbn [room1]; lia|]. cbn [room1] in Rm1.
    set (rp := MkFields fidp (d_start dp) (d_end dp)).
    assert (Wrp : wf_fields rp). { split; [|split; assumption]. cbn [f_fid rp]. pose proof (is_path_lt fn1 _ _ Wfn1 P1). pose proof (wf_size fn1 Wfn1). lia. }
    unfold dmd_file in Ea, Ia. set (old := render_dmd (zero_fields :: fs0)) in *.
    assert (Lold : nlen old = 12 * (nlen docs0 + 1)) by (unfold old, nlen; rewrite render_dmd_length; cbn [length]; lia).
    destruct (add_one a old rp Ba) as (ap & ip & Eap & Bap).
    assert (Ed : doc_ids fn0' (a, Some old) [(cwdp, dp)] = Ok (fn1, (ap, Some old), [ip])).
    { cbn [doc_ids]. unfold doc2id. rewrite Ep. cbn [bind]. fold rp. rewrite Eap. reflexivity. }
    (* its session *)
    assert (La : adder_last a = nlen docs0).
    { unfold adder_last. rewrite Ba, Fa. change (u32 (nlen (@nil fields))) with 0. unfold add32, sub32, u32, nlen in *. rewrite Lf0. lia. }
    assert (Lx : length xs0 = n) by exact (xi_shards _ _ _ _ _ _ _ _ _ _ I).
    destruct (completes u c k m n wk' (nlen docs0) (requests [(cwdp, dp)]) xs0 O) as (st & St & Fi); auto.
    { change (2 ^ 32) with 4294967296. clear - Hn. lia. } { change (2 ^ 32) with 4294967296. unfold requests, nlen in *. cbn [map length]. clear - L0. lia. }
    destruct Fi as (_ & Em & _). pose proof St as St0.
    destruct (start_workers_good u c k m n wk' O Ewk) as (Gw & Lw).
    assert (Hl' : nlen docs0 + nlen (requests [(cwdp, dp)]) < 4294967295) by (unfold nlen, requests in *; cbn [map length]; lia).
    unfold session_steps, session_start in St0. rewrite En, Es in St0.
    destruct (run_prefix serve_post u k m n Hk Hm Hn0 ltac:(lia) (requests [(cwdp, dp)]) [wp] (nlen docs0) wk' xs0 Gw Lx Hl' (words_of_requests _ _ _ Wp) st St0) as (Lsv & _).
    destruct (run_complete serve_post u k m n Hk Hm Hn0 ltac:(lia) (requests [(cwdp, dp)]) [wp] (nlen docs0) wk' xs0 Gw Lx Hl' (words_of_requests _ _ _ Wp) st _ St0 Em) as (_ & Y). clear St0.
    set (xs := map v_shard (s_servers st)) in *.
    assert (Shards : shards_open xs (w_shards (files_of dk)) = w_shards (files_of dk)).
    { assert (Lk : length (k_shards dk) = n) by exact (di_shards _ _ _ _ _ _ _ _ _ _ D).
      assert (Fs : forall j f v, nth_error (k_shards dk) j = Some f -> nth_error xs j = Some v -> x_file v = snd f).
      { intros j f v Ef Ev. assert (Lj : (j < n)%nat) by (rewrite <- Lk; eapply nth_len, Ef).
        destruct (di_closed _ _ _ _ _ _ _ _ _ _ D j f Ef) as (y & log & J & Fl & Sz & Eq).
        destruct (nth_ex xs0 j) as [s0 Es0]; [rewrite Lx; exact Lj|].
        destruct (for_shards_nth _ _ _ _ Exs) as [_ Nx]. destruct (Nx j s0 Es0) as (i4 & p4 & E4 & E5). rewrite Ef in E4. rewrite Eq in E4. injection E4 as <- <-.
        rewrite (shard_append_spec y log _ J Fl Sz) in E5. assert (s0 = y) as -> by congruence.
        unfold xs in Ev. rewrite nth_error_map in Ev. destruct (nth_error (s_servers st) j) as [sv|] eqn:Esv; [|discriminate]. cbn [option_map] in Ev.
        assert (v = v_shard sv) as -> by congruence. rewrite (Y j sv y Esv Es0), Eq. cbn [snd].
        change (x_file (serve_batch y (posts_for (word_hash u) k m n j (nlen docs0) [wp])) = x_file y).
        apply (young_files (nlen docs0 + 1)).
        - cbn [posts_for]. rewrite app_nil_r. apply Forall_forall. intros po Hpo. apply in_map_iff in Hpo. destruct Hpo as (b & <- & Hb0).
          pose proof (words_of_small u k m _ _ Wp) as Sm. inversion Sm as [|? ? Sm1 _]; subst. rewrite Forall_forall in Sm1.
          apply post_docid_make; [clear - L0; lia|]. unfold shard_part in Hb0. apply in_map_iff in Hb0. destruct Hb0 as (b1 & <- & Hb1). apply filter_In in Hb1. destruct Hb1 as [Hb1 _].
          specialize (Sm1 b1 Hb1). cbv beta in Sm1. eapply N.le_lt_trans; [|exact Sm1]. apply N.div_le_upper_bound; [clear - Hn0; lia|]. clear - Hn0. nia.
        - intros s po Epo. left. split; [unfold flushed in Fl; rewrite Forall_forall in Fl; apply Fl; eapply nth_error_In, Epo|].
          pose proof J as (J1 & _ & _ & _ & J5). destruct (J5 s po Epo) as (_ & _ & _ & Tt & _). rewrite Tt.
          assert (Ls : (s < num_slots)%nat) by (rewrite <- J1; eapply nth_len, Epo).
          rewrite (content_held u c k m n F docs0 wss j s Fit0 W0 Lj Ls). pose proof (carriers_len (word_hash u) k m n (N.of_nat s * N.of_nat n + N.of_nat j) wss 0) as Cl.
          pose proof (words_of_len _ _ _ W0) as Lw0. unfold u32, nlen in *. rewrite N.mod_small; clear - Cl Lw0 L0; lia. }
      unfold files_of. cbn [w_shards]. assert (Lxs : length xs = length (k_shards dk)) by (unfold xs; rewrite map_length; congruence).
      clearbody xs. clear - Fs Lxs. revert xs Fs Lxs. generalize (k_shards dk). induction l as [|[i0 p0] l IH]; intros [|v xs] Fs Ls; cbn [length map shards_open] in *; try discriminate; [reflexivity|].
      rewrite (Fs 0%nat _ v eq_refl eq_refl). cbn [fst snd some_pair]. f_equal. apply IH; [|congruence]. intros j f w Ef Ew. exact (Fs (S j) f w Ef Ew). }
    set (o := [None; None; None; None] ++ repeat None (length (fn_writes fn1)) ++ [None; None; Some 8%nat] : calls).
    set (dk1 := MkDisk (Some c) (Some (old ++ firstn 8 (enc_fields rp))) (Some (fn_write fn1)) (k_shards dk)).
    exists o, dk1. split; [|split; [reflexivity|]].
    { eapply ClosedSession; [exact E|exact Ed|cbn [x_cfg x_dmds fst]; rewrite La; exact St|exact Em|].
      fold xs. cbn [x_cfg]. unfold indexer_close_c.
      assert (Wc : w_cfg (files_of dk) = Some (config_write None c)) by (unfold files_of; cbn [w_cfg]; rewrite (di_cfg _ _ _ _ _ _ _ _ _ _ D); reflexivity).
      assert (Ec : config_write_c (w_cfg (files_of dk)) c o = (Some (config_write (w_cfg (files_of dk)) c), None :: repeat None (length (fn_writes fn1)) ++ [None; None; Some 8%nat], true)) by reflexivity.
      rewrite Ec, Wc, config_same. cbn [negb].
      assert (Ew : write_files_c (w_fnames (files_of dk)) fn1 (None :: repeat None (length (fn_writes fn1)) ++ [None; None; Some 8%nat]) = (Some (fn_write fn1), [None; None; Some 8%nat], true)).
      { unfold write_files_c. cbn [call]. rewrite appends_none. reflexivity. }
      rewrite Ew. cbn [negb].
      assert (Ew2 : adder_close_c (ap, Some old) [None; None; Some 8%nat] = (Some (old ++ firstn 8 (enc_fields rp)), [], false)).
      { unfold adder_close_c, flush_writes. rewrite Bap. reflexivity. }
      rewrite Ew2. cbn [negb]. rewrite Shards. reflexivity. }
    (* opening it again *)
    destruct (reload_spec fn1 Wfn1) as (fn1' & Efn1 & Wfn1' & Sfn1).
    assert (Rm1' : nlen fn1' <= 1 + path_room docs0 + nlen (show_abs (spec_abs cwdp (d_path dp)))) by (unfold nlen in *; rewrite <- (skel_length fn1'), Sfn1, skel_length; lia).
    destruct (add_path_spec cwdq fn1' (d_path dq) Oq1 Wfn1') as (fn2 & fidq & Eq & Wfn2 & X2 & P2 & Rm2); [cbn [room1]; lia|]. cbn [room1] in Rm2.
    set (rq := MkFields fidq (d_start dq) (d_end dq)).
    assert (Wrq : wf_fields rq). { split; [|split; assumption]. cbn [f_fid rq]. pose proof (is_path_lt fn2 _ _ Wfn2 P2). pose proof (wf_size fn2 Wfn2). lia. }
    assert (Na : exists a1, new_adder (Some (old ++ firstn 8 (enc_fields rp))) (cf_flush c) = Ok a1 /\ a_buf a1 = [] /\ adder_last a1 = nlen docs0).
    { unfold new_adder. assert (E1 : u32 (nlen (old ++ firstn 8 (enc_fields rp)) / rcd_size) = nlen docs0 + 1).
      { assert (nlen (old ++ firstn 8 (enc_fields rp)) = 12 * (nlen docs0 + 1) + 8) as -> by (unfold nlen in *; rewrite app_length, firstn_length, enc_fields_length; lia).
        unfold rcd_size. replace ((12 * (nlen docs0 + 1) + 8) / 12) with (nlen docs0 + 1) by (apply N.div_unique with 8; lia). unfold u32. apply N.mod_small. lia. }
      rewrite E1. assert ((nlen docs0 + 1 =? 0) = false) as -> by lia. assert ((cf_flush c <? 0)%Z = false) as -> by lia.
      eexists. split; [reflexivity|]. split; [reflexivity|]. unfold adder_last. cbn [a_flushed a_buf]. change (u32 (nlen (@nil fields))) with 0. unfold add32, sub32, u32. lia. }
    destruct Na as (a1 & Ea1 & Ba1 & La1).
    destruct (add_one a1 (old ++ firstn 8 (enc_fields rp)) rq Ba1) as (aq & iq & Eaq & Baq).
    assert (Ed2 : doc_ids fn1' (a1, Some (old ++ firstn 8 (enc_fields rp))) [(cwdq, dq)] = Ok (fn2, (aq, Some (old ++ firstn 8 (enc_fields rp))), [iq])).
    { cbn [doc_ids]. unfold doc2id. rewrite Eq. cbn [bind]. fold rq. rewrite Eaq. reflexivity. }
    assert (Eo : open_indexer dk1 = Ok (MkIndexer c (a1, Some (old ++ firstn 8 (enc_fields rp))) fn1' xs0, wk')).
    { unfold open_indexer, read_config. cbn [dk1 k_cfg k_dmd k_fnames k_shards]. rewrite (check_ok c k m n O Hn). cbn [bind]. rewrite (numshards_pos c k m n O Hn), Ea1. cbn [bind read_some]. rewrite Efn1. cbn [bind].
      rewrite (token_ok c k m n O). cbn [bind]. rewrite En, Exs. cbn [bind]. rewrite Ewk. reflexivity. }
    split.
    { destruct (completes u c k m n wk' (nlen docs0) (requests [(cwdq, dq)]) xs0 O) as (st2 & St2 & Fi2); auto.
      { change (2 ^ 32) with 4294967296. clear - Hn. lia. }
      destruct Fi2 as (_ & Em2 & _). eexists. eapply Session; [exact Eo|exact Ed2|cbn [x_cfg x_dmds fst]; rewrite La1; exact St2|exact Em2]. }
    intros dk2 Sn sorted Hs. inversion Sn as [x2 ws2 fn2' dm2' ids2 st2 j2 Eo2 Ed2' St2 Em2 Edk]; subst dk2. rewrite Eo in Eo2.
    assert (x2 = MkIndexer c (a1, Some (old ++ firstn 8 (enc_fields rp))) fn1' xs0) as -> by congruence. assert (ws2 = wk') as -> by congruence. clear Eo2. cbn [x_cfg x_fnames x_dmds x_shards fst] in *.
    rewrite Ed2 in Ed2'. assert (fn2' = fn2) as -> by congruence. assert (dm2' = (aq, Some (old ++ firstn 8 (enc_fields rp)))) as -> by congruence. clear Ed2'. rewrite La1 in St2.
    (* the session there would have been without the failure *)
    destruct (add_path_spec cwdq fn0' (d_path dq) Oq1 Wfn0) as (fnr & fidr & Er & _); [cbn [room1]; lia|].
    destruct (add_one a old (MkFields fidr (d_start dq) (d_end dq)) Ba) as (ar & ir & Ear & _).
    assert (Edr : doc_ids fn0' (a, Some old) [(cwdq, dq)] = Ok (fnr, (ar, Some old), [ir])).
    { cbn [doc_ids]. unfold doc2id. rewrite Er. cbn [bind]. rewrite Ear. reflexivity. }
    assert (Sr : session u (open_indexer dk) [(cwdq, dq)] (MkDisk (Some c) (adder_close (ar, Some old)) (Some (fn_write fnr)) (map shard_close (map v_shard (s_servers st2))))).
    { refine (Session u _ _ _ _ _ _ _ _ _ E Edr _ Em2). cbn [x_cfg x_dmds fst x_shards]. rewrite La. exact St2. }
    pose proof (history_append u c ss dk _ _ Hi Sr) as Hr.
    assert (Ar : all_docs ([(cwdq, dq)] :: ss) = docs0 ++ [(cwdq, dq)]) by apply all_docs_cons.
    destruct (opened u c k m n sorted F Hs _ _ (wss ++ [wq]) Hr) as (ixr & Eir & Ir); [rewrite Ar; exact Fitq|rewrite Ar; apply Forall2_app; assumption|]. rewrite Ar in Ir.
    unfold open_index, read_config in Eir. cbn [k_cfg k_dmd k_fnames k_shards] in Eir. rewrite (check_ok c k m n O Hn) in Eir. cbn [bind] in Eir.
    destruct (read_some Ok _) as [gr| | |] in Eir; cbn [bind] in Eir; try discriminate. destruct (read_some read_fnames _) as [fr| | |] in Eir; cbn [bind] in Eir; try discriminate.
    rewrite (numshards_pos c k m n O Hn), En in Eir.
    match type of Eir with context [for_shards ?a ?b ?d] => destruct (for_shards a b d) as [sis| | |] eqn:Esis end; cbn [bind] in *; try discriminate. injection Eir as <-.
    destruct (reload_spec fn2 Wfn2) as (fn2' & Efn2 & Wfn2' & Sfn2).
    set (dmd2 := old ++ firstn 8 (enc_fields rp) ++ enc_fields rq).
    assert (Ecl : adder_close (aq, Some (old ++ firstn 8 (enc_fields rp))) = Some dmd2).
    { unfold adder_close. rewrite Baq. unfold adder_flush, flush_writes. rewrite Baq. cbn [snd map concat file_append]. rewrite app_nil_r, <- app_assoc. reflexivity. }
    exists (MkIndex c dmd2 fn2' sis), fidq. split.
    { unfold open_index, read_config. cbn [k_cfg k_dmd k_fnames k_shards]. rewrite (check_ok c k m n O Hn). cbn [bind]. rewrite Ecl. cbn [read_some bind]. rewrite Efn2. cbn [bind].
      rewrite (numshards_pos c k m n O Hn), En, Esis. reflexivity. }
    (* the places *)
    assert (X01 : extends fn0 fn2').
    { apply extends_trans with fn1; [destruct X1 as [t T]; exists t; rewrite T, Sfn0; reflexivity|].
      apply extends_trans with fn2; [destruct X2 as [t T]; exists t; rewrite T, Sfn1; reflexivity|]. exists []. rewrite app_nil_r. exact Sfn2. }
    assert (X12 : extends fn1 fn2').
    { apply extends_trans with fn2; [destruct X2 as [t T]; exists t; rewrite T, Sfn1; reflexivity|]. exists []. rewrite app_nil_r. exact Sfn2. }
    pose proof (words_of_len _ _ _ W0) as Lw0.
    destruct Ir as [Ir1 Ir2 Ir3 Ir4 Ir5 _]. constructor; cbn [ix_shards] in *; auto.
    intros s b d Ls Lb Hd. apply SessionP.carriers_in in Hd. unfold docid2doc, misplaced. cbn [ix_dmd ix_fnames].
    assert (Hd' : 1 <= d <= nlen docs0 + 1) by (unfold nlen in *; rewrite app_length in Hd; cbn [length] in Hd; lia). clear Hd.
    destruct (N.eqb_spec d (nlen docs0 + 1)) as [->|Nd].
    - assert (El : nlen docs0 + 1 = nlen (zero_fields :: fs0)) by (unfold nlen; cbn [length]; lia). rewrite El. unfold dmd2, old. rewrite torn_lookup by assumption.
      cbn [bind f_fid f_start f_end rp rq]. rewrite (fn_abs_path fn2' _ _ Wfn2' (extends_path _ _ _ _ X12 P1)), parts_show. reflexivity.
    - destruct (nth_ex docs0 (N.to_nat (d - 1))) as [pd Epd]; [unfold nlen in *; lia|].
      destruct (record_of u c k m n F _ _ _ _ _ d pd D Fit0 ltac:(lia) Epd) as (f & Ef & Rf1 & Rf2 & Rf3).
      unfold dmd2, old. rewrite (lookup_longer _ _ _ _ Ef). cbn [bind].
      rewrite (fn_abs_path fn2' _ _ Wfn2' (extends_path _ _ _ _ X01 Rf3)), parts_show. cbn [bind]. unfold place_of. rewrite Epd. destruct pd as [cwd y]. cbn [fst snd] in *. rewrite Rf1, Rf2. reflexivity.
  Qed.
End A.
