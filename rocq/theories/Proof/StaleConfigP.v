(** Sessions that work with the configuration of an index that has been replaced. *)
From Verif Require Import Model.Base Model.Address Model.Varint Model.Utf8 Model.Token Model.Blotter Model.Post Model.Poster Model.Shatter Model.Shard Model.Dmd Model.Fnames Model.Conc Model.Config Model.Json Model.Run Model.Index Model.Query Model.Session Model.Crash Model.StaleConfig.
From Verif Require Import Spec.Text Spec.Fingerprint Spec.Configs Spec.Posting Spec.Postings Spec.Paths Spec.Reading Spec.Querying Spec.History.
From Verif Require Import Proof.Tactics Proof.VarintP Proof.TokenP Proof.BlotterP Proof.ShatterP Proof.IndexP2 Proof.DmdP Proof.FnamesP Proof.FnamesP2 Proof.PosterP Proof.ShardP Proof.ConcP Proof.ConcRun Proof.QueryP Proof.JsonP Proof.ConfigP Proof.SessionP Proof.SessionP2 Proof.JsonP2 Proof.CutP Proof.CrashP Proof.KeepP Proof.CrashP2 Proof.CrashP3 Proof.LiveP Proof.MomentsP Proof.CloseFaultP Proof.LinkCutP Proof.LinkCutP2 Proof.DocidP Proof.StaleP Proof.StaleP2.
From Coq Require Import Lia.
Local Open Scope N_scope.

Lemma open_in_two dirs root : open_indexer_files dirs root = do! c <- Json.read_config (w_cfg (dirs root)); open_from_config c (dirs (cf_root c)).
Proof. reflexivity. Qed.
Lemma for_files_app {A} (f : bytes -> bytes -> result A) rest n : forall l, length l = n -> for_files f n (l ++ rest) = for_files f n l.
Proof.
  induction n as [|n IH]; intros l L; [reflexivity|]. destruct l as [|[[iix|] [pos|]] l]; cbn [length] in L; try discriminate; cbn [app for_files]; try reflexivity.
  destruct (f iix pos); cbn [bind]; try reflexivity. rewrite IH by lia. reflexivity.
Qed.
(** Only the shards of the given number are looked at. *)
Lemma open_from_disk c dk : cfg_check c = Ok tt -> (Z.to_nat (cf_numshards c) <= length (k_shards dk))%nat ->
  open_from_config c (files_of dk) = open_indexer (MkDisk (Some c) (k_dmd dk) (k_fnames dk) (firstn (Z.to_nat (cf_numshards c)) (k_shards dk))).
Proof.
  intros Ck L. unfold open_from_config, open_indexer, read_config, files_of. cbn [w_dmd w_fnames w_shards k_cfg k_dmd k_fnames k_shards]. rewrite Ck. cbn [bind].
  change (map (fun p : bytes * bytes => (Some (fst p), Some (snd p))) (k_shards dk)) with (map some_pair (k_shards dk)).
  assert (X : forall A (f : bytes -> bytes -> result A), for_files f (Z.to_nat (cf_numshards c)) (map some_pair (k_shards dk)) = for_shards f (Z.to_nat (cf_numshards c)) (firstn (Z.to_nat (cf_numshards c)) (k_shards dk))).
  { intros A f. transitivity (for_files f (Z.to_nat (cf_numshards c)) (map some_pair (firstn (Z.to_nat (cf_numshards c)) (k_shards dk) ++ skipn (Z.to_nat (cf_numshards c)) (k_shards dk)))); [rewrite firstn_skipn; reflexivity|].
    rewrite map_app, for_files_app, for_files_some; [reflexivity|]. rewrite map_length, firstn_length. lia. }
  rewrite X. reflexivity.
Qed.

Section A.
  Variables (u : unicode) (c c2 : config) (k m n n2 : nat).
  Hypothesis F : cfg_full c k m n.
  Hypothesis F2 : cfg_full c2 k m n2.
  Hypothesis Lt : (n < n2)%nat.
  Hypothesis Sfl : cf_flush c2 = cf_flush c.
  Hypothesis Ssh : cf_numshatters c2 = cf_numshatters c.
  Let O : cfg_ok c k m n := cu_ok _ _ _ _ F.
  Let Hn : N.of_nat n < 65536 := cu_n _ _ _ _ F.
  Let Hfl : (1 <= cf_flush c)%Z := cu_flush _ _ _ _ F.
  Let O2 : cfg_ok c2 k m n2 := cu_ok _ _ _ _ F2.
  Let Hn2 : N.of_nat n2 < 65536 := cu_n _ _ _ _ F2.
  Let Hfl2 : (1 <= cf_flush c2)%Z := cu_flush _ _ _ _ F2.
  Notation carr n last wss q := (carriers (word_hash u) k m n last wss q).
  Notation posts n j last wss := (posts_for (word_hash u) k m n j last wss).

  (** What a slot holds in the end. *)
  Definition mixed (wss w : list (list bytes)) (b : N) : list N :=
    carr n2 0 wss (b / N.of_nat n * N.of_nat n2 + b mod N.of_nat n) ++ carr n (nlen wss) w b.
  Lemma mixed_slot wss w j s : (j < n)%nat -> (s < num_slots)%nat -> nlen (wss ++ w) < 4294967295 -> small (word_hash u) k m (wss ++ w) ->
    content_of (posts n2 j 0 wss ++ posts n j (nlen wss) w) s = mixed wss w (N.of_nat s * N.of_nat n + N.of_nat j).
  Proof.
    intros Lj Ls Ln Sm. assert (Hn0 : (0 < n)%nat) by lia. assert (Hn20 : (0 < n2)%nat) by lia. apply Forall_app in Sm. destruct Sm as [S0 S1].
    assert (E0 : squeeze (posted s (posts n2 j 0 wss)) = carr n2 0 wss (N.of_nat s * N.of_nat n2 + N.of_nat j)).
    { apply posts_carriers; auto; [lia|]. unfold nlen in *. rewrite app_length in Ln. lia. }
    assert (E1 : squeeze (posted s (posts n j (nlen wss) w)) = carr n (nlen wss) w (N.of_nat s * N.of_nat n + N.of_nat j)).
    { apply posts_carriers; auto. unfold nlen in *. rewrite app_length in Ln. lia. }
    assert (D : (N.of_nat s * N.of_nat n + N.of_nat j) / N.of_nat n = N.of_nat s /\ (N.of_nat s * N.of_nat n + N.of_nat j) mod N.of_nat n = N.of_nat j).
    { assert (Nz : N.of_nat n <> 0) by lia. rewrite N.add_comm. split; [rewrite N.div_add, N.div_small by lia; lia|rewrite N.mod_add, N.mod_small by lia; reflexivity]. }
    unfold mixed. destruct D as [-> ->]. rewrite <- E0, <- E1. unfold content_of. rewrite posted_app. apply squeeze_apart. intros x y Na Hy.
    assert (X : In (last (posted s (posts n2 j 0 wss)) x) (squeeze (posted s (posts n2 j 0 wss)))).
    { apply squeeze_in. destruct (posted s (posts n2 j 0 wss)) as [|a l]; [congruence|]. apply last_in. discriminate. }
    rewrite E0 in X. apply SessionP.carriers_in in X. destruct (posted s (posts n j (nlen wss) w)) as [|v l] eqn:Ev; [discriminate|]. cbn [hd_error] in Hy. injection Hy as <-.
    assert (Y : In v (squeeze (v :: l))) by (apply squeeze_in; left; reflexivity). rewrite E1 in Y. apply SessionP.carriers_in in Y. lia.
  Qed.
  Lemma mixed_bounded wss w j : (j < n)%nat -> nlen (wss ++ w) < 4294967295 -> small (word_hash u) k m (wss ++ w) -> bounded (posts n2 j 0 wss ++ posts n j (nlen wss) w).
  Proof.
    intros Lj Ln Sm s. destruct (Nat.lt_ge_cases s num_slots) as [Ls|Ls].
    - pose proof (mixed_slot wss w j s Lj Ls Ln Sm) as X. unfold content_of in X. rewrite X. unfold mixed.
      pose proof (carriers_len (word_hash u) k m n2 ((N.of_nat s * N.of_nat n + N.of_nat j) / N.of_nat n * N.of_nat n2 + (N.of_nat s * N.of_nat n + N.of_nat j) mod N.of_nat n) wss 0) as X1.
      pose proof (carriers_len (word_hash u) k m n (N.of_nat s * N.of_nat n + N.of_nat j) w (nlen wss)) as X2. clear - X1 X2 Ln. unfold nlen in *. rewrite app_length in *. lia.
    - rewrite (posted_none (word_hash u) n ltac:(lia) s _ Ls). clear. cbn [squeeze]. unfold nlen. cbn [length]. lia.
  Qed.

  Theorem stale_config ss dk docs wss w : history u c2 ss dk -> docs_fit (all_docs ss ++ docs) -> (0 < cf_numshatters c)%Z ->
    words_of (word_char u) (all_docs ss) wss -> words_of (word_char u) docs w ->
    (exists dk', session u (open_from_config c (files_of dk)) docs dk') /\
    forall dk', session u (open_from_config c (files_of dk)) docs dk' -> k_cfg dk' = Some c /\ length (k_shards dk') = n /\ forall sorted, sorts sorted ->
      exists ix, open_index sorted dk' = Ok ix /\ forall grow fuel blot, (length (all_docs ss ++ docs) < fuel)%nat ->
        exists ds, query_get grow ix fuel blot None = Ok ds /\
          docs_keys ds = map (place_of (all_docs ss ++ docs)) (mixed wss w (blot mod (N.of_nat n * 65536))).
  Proof.
    intros Hi Fit Hsh W0 W1. set (docs0 := all_docs ss) in *. assert (Fit0 : docs_fit docs0) by (eapply fit_app, Fit).
    destruct (history_inv u c2 k m n2 O2 Hn2 Hfl2 ss dk Hi Fit0 wss W0) as (fn0 & fs0 & D). fold docs0 in D.
    pose proof (df_len _ Fit0) as L0. pose proof (df_len _ Fit) as L1. change (2 ^ 32) with 4294967296 in L0, L1.
    destruct (open_start u c2 k m n2 O2 Hn2 Hfl2 _ _ _ _ _ D ltac:(lia)) as (x2 & wk & E2 & I2).
    destruct (session_inv u c2 k m n2 O2 Hn2 _ x2 wk _ _ _ docs w E2 I2 Fit W0 W1) as (_ & Xs & (fn & dm & Ed) & La).
    destruct (Xs ltac:(rewrite Ssh; exact Hsh)) as (dk2 & S2). clear Xs. pose proof (history_append u c2 ss dk docs dk2 Hi S2) as Hi2.
    pose proof (xi_cfg _ _ _ _ _ _ _ _ _ _ I2) as Xc2. pose proof (di_shards _ _ _ _ _ _ _ _ _ _ D) as Ldk.
    destruct (cfg_nat _ _ _ _ O) as (En & Es & Hk & Hm & Hn0).
    assert (Wk : start_workers c = Ok wk).
    { pose proof (xi_ws _ _ _ _ _ _ _ _ _ _ I2) as X. unfold start_workers in X |- *. rewrite Ssh, (co_blot _ _ _ _ O2) in X. rewrite (co_blot _ _ _ _ O). exact X. }
    pose proof (words_of_len _ _ _ W0) as Lw0. pose proof (words_of_len _ _ _ W1) as Lw1.
    assert (EN0 : nlen docs0 = nlen wss) by (unfold nlen; lia).
    assert (Small : small (word_hash u) k m (wss ++ w)) by (apply Forall_app; split; [eapply words_of_small, W0|eapply words_of_small, W1]).
    assert (Ln : nlen (wss ++ w) < 4294967295) by (unfold nlen in *; rewrite !app_length in *; lia).
    set (hist := fun j => posts n2 j 0 wss). set (more := fun j => posts n j (nlen wss) w).
    assert (Bd : forall j, (j < n)%nat -> bounded (hist j ++ more j)) by (intros j Lj; apply mixed_bounded; assumption).
    set (ps := firstn n (k_shards dk)). assert (Lps : length ps = n) by (unfold ps; rewrite firstn_length, Ldk; lia).
    destruct (for_shards_spec shard_append (fun j z => exists log, shard_inv z log (content_of (hist j))) ps 0 n Lps) as (zs & Ez & Lz & Nz).
    { intros j iix pos Ej. assert (Lj : (j < n)%nat) by (rewrite <- Lps; eapply nth_len, Ej).
      assert (Ej2 : nth_error (k_shards dk) j = Some (iix, pos)).
      { rewrite <- (firstn_skipn n (k_shards dk)). rewrite nth_error_app1 by (fold ps; lia). exact Ej. }
      destruct (di_closed _ _ _ _ _ _ _ _ _ _ D j _ Ej2) as (y & log & J & Fl & Sz & Ef). injection Ef as -> ->. exists y. split; [apply (shard_append_spec y log _ J Fl Sz)|]. exists log. exact J. }
    assert (Eo : open_from_config c (files_of dk) = Ok (MkIndexer c (x_dmds x2) (x_fnames x2) zs, wk)).
    { rewrite open_from_disk; [|apply (check_ok c k m n O Hn)|rewrite En, Ldk; lia]. rewrite En. fold ps.
      unfold open_indexer, read_config in E2 |- *. cbn [k_cfg k_dmd k_fnames k_shards] in *. rewrite (di_cfg _ _ _ _ _ _ _ _ _ _ D) in E2.
      rewrite (check_ok c k m n O Hn). rewrite (check_ok c2 k m n2 O2 Hn2) in E2. cbn [bind] in *.
      assert (X : (cf_numshards c <? 0)%Z = false) by (rewrite (co_shards _ _ _ _ O); apply Z.ltb_ge; lia). rewrite X. clear X.
      destruct (cf_numshards c2 <? 0)%Z; [discriminate|]. rewrite Sfl in E2. destruct (new_adder _ _) as [a| | |]; cbn [bind] in *; try discriminate.
      destruct (read_some _ _) as [f| | |]; cbn [bind] in *; try discriminate. rewrite (co_token _ _ _ _ O2) in E2. rewrite (co_token _ _ _ _ O).
      destruct (token_from_config _) as [t| | |]; cbn [bind] in *; try discriminate. rewrite En, Ez. cbn [bind]. rewrite Wk. cbn [bind].
      match type of E2 with context [for_shards ?a ?b ?d] => destruct (for_shards a b d) as [xs'| | |] end; cbn [bind] in *; try discriminate.
      destruct (start_workers c2) as [wk'| | |]; cbn [bind] in *; try discriminate. injection E2 as <- <-. reflexivity. }
    assert (Hl : nlen docs0 + nlen (requests docs) < 4294967295) by (unfold nlen in *; rewrite !app_length in *; unfold requests; rewrite map_length; lia).
    split.
    { destruct (completes u c k m n wk (nlen docs0) (requests docs) zs O) as (st & St & Fi); auto.
      { change (2 ^ 32) with 4294967296. clear - Hn. lia. }
      destruct Fi as (_ & Em & _). rewrite <- La in St.
      eexists. exact (Session u _ docs (MkIndexer c (x_dmds x2) (x_fnames x2) zs) wk fn dm _ st _ Eo Ed St Em). }
    intros dk' Sn. inversion Sn as [x ws fn' dm' ids st j Eo' Ed' St Em Edk]; subst dk'. rewrite Eo in Eo'. injection Eo' as <- <-. cbn [x_cfg x_fnames x_dmds x_shards k_cfg k_shards] in *.
    rewrite Ed in Ed'. injection Ed' as <- <- <-. rewrite La in St.
    destruct (start_workers_good u c k m n wk O Wk) as (Gw & Lw).
    unfold session_steps, session_start in St. rewrite En, Es in St.
    destruct (run_prefix serve_post u k m n Hk Hm Hn0 ltac:(lia) (requests docs) w (nlen docs0) wk zs Gw Lz Hl (words_of_requests _ _ _ W1) st St) as (Lsv & _).
    destruct (run_complete serve_post u k m n Hk Hm Hn0 ltac:(lia) (requests docs) w (nlen docs0) wk zs Gw Lz Hl (words_of_requests _ _ _ W1) st _ St Em) as (_ & Y).
    set (ys := map shard_close (map v_shard (s_servers st))) in *.
    assert (Lys : length ys = n) by (unfold ys; rewrite !map_length; exact Lsv).
    split; [reflexivity|]. split; [exact Lys|]. intros sorted Hs.
    destruct (docid_place u c2 k m n2 sorted F2 Hs _ _ Hi2) as (ixc & Eic & Pl & Be); [rewrite all_docs_cons; exact Fit|]. rewrite all_docs_cons in Pl, Be. fold docs0 in Pl, Be.
    destruct (for_shards_spec (shard_open sorted) (fun j si => forall s, (s < num_slots)%nat -> reads (si_file si) (new_posts (nth s (si_heads si) (-1)%Z)) (mixed wss w (N.of_nat s * N.of_nat n + N.of_nat j))) ys 0 n Lys)
      as (sis & Esi & Lsi & Nsi).
    { intros i iix pos Ej. cbn [Nat.add]. assert (Lj : (i < n)%nat) by (rewrite <- Lys; eapply nth_len, Ej). unfold ys in Ej. rewrite !nth_error_map in Ej.
      destruct (nth_error (s_servers st) i) as [sv|] eqn:Esv; [|discriminate]. cbn [option_map] in Ej. destruct (nth_ex zs i) as [z Ezj]; [rewrite Lz; exact Lj|].
      rewrite (Y i sv z Esv Ezj) in Ej. rewrite EN0 in Ej. fold (more i) in Ej. change (fold_left serve_post (more i) z) with (serve_batch z (more i)) in Ej.
      destruct (Nz i z Ezj) as (log & J). cbn [Nat.add] in J. destruct (serve_batch_inv (more i) z log (hist i) J (Bd i Lj)) as (log' & J').
      pose proof (close_closed _ _ _ J' (Bd i Lj)) as C. destruct (shard_open_spec sorted _ _ C (Bd i Lj)) as (si & Esi & _ & _ & _ & R).
      assert (Ej2 : shard_close (serve_batch z (more i)) = (iix, pos)) by congruence. rewrite Ej2 in Esi. cbn [fst snd] in Esi. exists si. split; [exact Esi|].
      intros s Ls. rewrite <- (mixed_slot wss w i s Lj Ls Ln Small). apply R, Ls. }
    assert (Eix : open_index sorted (MkDisk (Some c) (adder_close dm) (Some (fn_write fn)) ys) = Ok (MkIndex c (ix_dmd ixc) (ix_fnames ixc) sis)).
    { inversion S2 as [x3 ws3 fn3 dm3 ids3 st3 j3 E3 Ed3 St3 Em3 Edk3]; subst dk2. rewrite E2 in E3. injection E3 as <- <-. rewrite Ed in Ed3. injection Ed3 as <- <- <-.
      unfold open_index, read_config in Eic |- *. cbn [k_cfg k_dmd k_fnames k_shards] in *. rewrite Xc2 in *. rewrite (check_ok c k m n O Hn). rewrite (check_ok c2 k m n2 O2 Hn2) in Eic. cbn [bind] in *.
      destruct (read_some Ok _) as [g| | |]; cbn [bind] in *; try discriminate. destruct (read_some read_fnames _) as [f| | |]; cbn [bind] in *; try discriminate.
      assert (X : (cf_numshards c <? 0)%Z = false) by (rewrite (co_shards _ _ _ _ O); apply Z.ltb_ge; lia). rewrite X. clear X.
      destruct (cf_numshards c2 <? 0)%Z; [discriminate|]. rewrite En, Esi. cbn [bind]. match type of Eic with context [for_shards ?a ?b ?d] => destruct (for_shards a b d) as [sis'| | |] end; cbn [bind] in *; try discriminate. injection Eic as <-. reflexivity. }
    exists (MkIndex c (ix_dmd ixc) (ix_fnames ixc) sis). split; [exact Eix|].
    intros grow fuel blot Lf. set (ids := mixed wss w (blot mod (N.of_nat n * 65536))).
    pose proof (shard_small c k m n F blot) as Lj. pose proof (slot_small n blot) as Ls.
    destruct (nth_ex sis (QueryP.shard_of n blot)) as [si Ej]; [rewrite Lsi; exact Lj|].
    pose proof (Nsi _ si Ej _ Ls) as Rd. cbn [Nat.add] in Rd. rewrite (blot_slot n Hn0 blot) in Rd. fold ids in Rd.
    assert (Eg : query_get grow (MkIndex c (ix_dmd ixc) (ix_fnames ixc) sis) fuel blot None =
      get_loop grow (MkIndex c (ix_dmd ixc) (ix_fnames ixc) sis) fuel false (si_file si) (new_posts (nth (QueryP.slot_of n blot) (si_heads si) (-1)%Z)) None).
    { unfold query_get, get_address. cbn [ix_shards]. assert (u32 (nlen sis) = N.of_nat n) as -> by (unfold u32, nlen; rewrite Lsi; apply N.mod_small; clear - Hn; lia).
      destruct (N.eqb_spec (N.of_nat n) 0) as [X|_]; [clear - X Hn0; lia|]. cbn [bind]. fold (QueryP.shard_of n blot). rewrite Ej. reflexivity. }
    set (b := blot mod (N.of_nat n * 65536)) in *.
    assert (Li : (length ids < fuel)%nat).
    { unfold ids, mixed. rewrite app_length. pose proof (carriers_len (word_hash u) k m n2 (b / N.of_nat n * N.of_nat n2 + b mod N.of_nat n) wss 0) as X1.
      pose proof (carriers_len (word_hash u) k m n b w (nlen wss)) as X2. clear - X1 X2 Lf Lw0 Lw1. rewrite !app_length in *. lia. }
    rewrite Eg.
    destruct (get_loop_free grow (MkIndex c (ix_dmd ixc) (ix_fnames ixc) sis) (place_of (docs0 ++ docs)) (si_file si) ids fuel _ None Rd) as (ds & E1 & _ & E3); [|exact Logic.I|exact Li|].
    - intros d Hd. change (docid2doc ixc d = Ok (place_of (docs0 ++ docs) d)). apply Pl. unfold ids, mixed in Hd. apply in_app_or in Hd.
      destruct Hd as [Hd|Hd]; apply SessionP.carriers_in in Hd; unfold nlen in *; rewrite app_length; lia.
    - exists ds. split; [exact E1|]. unfold docs_keys. rewrite E3. cbn [docs_list app]. rewrite map_map. apply map_ext. intros d. destruct (place_of _ d) as [[a e] f]. reflexivity.
  Qed.
End A.
