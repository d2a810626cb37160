(** What a stopped session leaves. *)
From Verif Require Import Model.Base Model.Varint Model.Utf8 Model.Token Model.Blotter Model.Post Model.Poster Model.Shatter Model.Shard Model.Dmd Model.Fnames Model.Conc Model.Config Model.Json Model.Run Model.Index Model.Query Model.Session Model.Crash.
From Verif Require Import Spec.Text Spec.Fingerprint Spec.Configs Spec.Posting Spec.Postings Spec.Paths Spec.Reading Spec.Querying Spec.History.
From Verif Require Import Proof.Tactics Proof.VarintP Proof.TokenP Proof.BlotterP Proof.ShatterP Proof.IndexP2 Proof.DmdP Proof.FnamesP Proof.FnamesP2 Proof.PosterP Proof.ShardP Proof.ConcP Proof.ConcRun Proof.QueryP Proof.JsonP Proof.ConfigP Proof.SessionP Proof.SessionP2 Proof.JsonP2 Proof.CutP.
Local Open Scope N_scope.

(** * Tables that are not whole *)
Lemma read_iix_r_all ps rest : Forall table_ok ps ->
  read_iix_r (length ps) (iix_bytes ps ++ rest) = Ok (map (fun p => MkPoster (-1) (p_head p) (p_current p) (p_total p) []) ps, rest).
Proof.
  revert rest; induction ps as [|p ps IH]; intros rest H; [reflexivity|]. inv H.
  cbn [length read_iix_r map]. rewrite iix_bytes_cons, <- app_assoc, init_append_spec by assumption.
  cbn [bind]. rewrite IH by assumption. reflexivity.
Qed.
Lemma read_table_r_all ps rest : Forall table_ok ps ->
  read_table_r (length ps) (iix_bytes ps ++ rest) = Ok (map (fun p => (p_head p, p_total p)) ps, rest).
Proof.
  revert rest; induction ps as [|p ps IH]; intros rest H; [reflexivity|]. inv H.
  destruct H2 as (H1 & H2 & H4).
  cbn [length read_table_r map]. rewrite iix_bytes_cons. unfold iix_entry_writes. cbn [concat].
  rewrite app_nil_r, <- !app_assoc.
  rewrite read_varint_put by assumption. cbn [bind].
  rewrite read_varint_put by lia. cbn [bind].
  assert ((Z.of_N (p_total p) <? 0)%Z || (4294967296 <=? Z.of_N (p_total p))%Z = false) as ->
    by (apply orb_false_intro; lia).
  change 4%nat with (length (put_be32 (p_current p))).
  rewrite read_bytes_app. cbn [bind]. rewrite IH by assumption. cbn [bind]. rewrite N2Z.id. reflexivity.
Qed.
Lemma cut_not_whole {A} (f : bytes -> result (A * bytes)) pre post v : cuttable f -> f (pre ++ post) = Ok (v, []) -> post <> [] -> exists e, f pre = Err e.
Proof.
  intros C E N0. destruct (C pre post v [] E) as [(p' & _ & Ep)|X]; [|exact X]. symmetry in Ep. apply app_eq_nil in Ep. tauto.
Qed.
Lemma open_cut sorted ps pre post pos : Forall table_ok ps -> length ps = num_slots -> iix_bytes ps = pre ++ post -> post <> [] ->
  exists e, shard_open sorted pre pos = Err e.
Proof.
  intros T L E N0. pose proof (read_table_r_all ps [] T) as R. rewrite app_nil_r, L, E in R.
  destruct (cut_not_whole _ _ _ _ (table_cut num_slots) R N0) as [e X]. exists e. unfold shard_open. rewrite read_table_r_spec, X. reflexivity.
Qed.
Lemma append_cut_err ps pre post pos : Forall table_ok ps -> length ps = num_slots -> iix_bytes ps = pre ++ post -> post <> [] ->
  exists e, shard_append pre pos = Err e.
Proof.
  intros T L E N0. pose proof (read_iix_r_all ps [] T) as R. rewrite app_nil_r, L, E in R.
  destruct (cut_not_whole _ _ _ _ (iix_cut num_slots) R N0) as [e X]. exists e. unfold shard_append. rewrite read_iix_r_spec, X. reflexivity.
Qed.
(** The table of a new shard holds no totals: it cannot be read. *)
Lemma created_length : length iix_created = (5 * num_slots)%nat.
Proof.
  unfold iix_created, iix_create_writes. generalize num_slots. intros n. induction n as [|n IH]; [reflexivity|].
  cbn [repeat concat]. rewrite concat_app, app_length, IH. change (length (concat init_create_writes)) with 5%nat. lia.
Qed.
Lemma slots_pos : (0 < num_slots)%nat.
Proof. rewrite num_slots_val. lia. Qed.
Lemma open_created sorted pre post pos : iix_created = pre ++ post -> exists e, shard_open sorted pre pos = Err e.
Proof.
  intros E. pose proof created_length as L. rewrite E, app_length in L. pose proof slots_pos.
  unfold shard_open. rewrite read_table_r_spec.
  destruct (table_err num_slots pre) as [(v & r' & _ & X)|(e & ->)]; [lia|]. exists e. reflexivity.
Qed.
Lemma append_created pre post pos : iix_created = pre ++ post -> exists e, shard_append pre pos = Err e.
Proof.
  intros E. pose proof created_length as L. rewrite E, app_length in L. pose proof slots_pos.
  unfold shard_append. rewrite read_iix_r_spec.
  destruct (iix_err num_slots pre) as [(v & r' & _ & X)|(e & ->)]; [lia|]. exists e. reflexivity.
Qed.

(** * All shards *)
(** [f] opens what Close leaves of [x], and fails on less of the table. *)
Record opens {A} (f : bytes -> bytes -> result A) (x : shard) : Prop := {
  on_all : exists y, f (fst (shard_close x)) (snd (shard_close x)) = Ok y;
  on_cut : forall pre post pos, fst (shard_close x) = pre ++ post -> post <> [] -> exists e, f pre pos = Err e;
  on_new : forall pos, exists e, f iix_created pos = Err e }.
Definition some_pair (p : bytes * bytes) : option bytes * option bytes := (Some (fst p), Some (snd p)).
Lemma for_files_some {A} (f : bytes -> bytes -> result A) files : forall n, for_files f n (map some_pair files) = for_shards f n files.
Proof.
  induction files as [|[iix pos] files IH]; intros [|n]; cbn [map some_pair fst snd for_files for_shards]; auto.
  destruct (f iix pos); cbn [bind]; auto. rewrite IH. reflexivity.
Qed.
Lemma closing_cases {A} (f : bytes -> bytes -> result A) xs : Forall (opens f) xs ->
  forall sh, shards_at closing xs (repeat new_shard_files (length xs)) sh ->
  (exists e, for_files f (length xs) sh = Err e) \/ sh = map some_pair (map shard_close xs).
Proof.
  induction 1 as [|x xs [(y & Ey) C N0] F IH]; intros sh S; cbn [length repeat shards_at map] in *.
  - destruct sh; [auto|contradiction].
  - destruct sh as [|s sh]; [contradiction|]. destruct S as [S1 S2]. cbn [new_shard_files fst] in S1.
    assert (Z : (exists e, for_files f (S (length xs)) (s :: sh) = Err e) \/ s = some_pair (shard_close x)).
    { inversion S1 as [pos W E|pre post E1 E]; subst s.
      - left. cbn [for_files]. destruct (N0 pos) as [e Ee]. rewrite Ee. exists e. reflexivity.
      - destruct post as [|b post].
        + right. rewrite app_nil_r in E1. unfold some_pair, shard_close. cbn [fst snd]. rewrite E1. reflexivity.
        + left. cbn [for_files]. destruct (C pre (b :: post) (x_file (flush_ind x))) as [e Ee]; [exact E1|discriminate|]. rewrite Ee. exists e. reflexivity. }
    destruct Z as [Z|Z]; [left; exact Z|]. subst s.
    destruct (IH sh S2) as [(e & Ee)|Es].
    + left. exists e. cbn [for_files some_pair]. rewrite Ey. cbn [bind]. rewrite Ee. reflexivity.
    + right. rewrite Es. reflexivity.
Qed.
Lemma still_new {A} (f : bytes -> bytes -> result A) xs sh : (forall pos, exists e, f iix_created pos = Err e) -> xs <> [] ->
  shards_at (fun x iix p => p = (iix, Some (x_file x))) xs (repeat new_shard_files (length xs)) sh -> exists e, for_files f (length xs) sh = Err e.
Proof.
  intros N0 Nx S. destruct xs as [|x xs]; [contradiction|]. cbn [length repeat shards_at] in S. destruct sh as [|s sh]; [contradiction|].
  destruct S as [-> _]. cbn [length for_files new_shard_files fst]. destruct (N0 (x_file x)) as [e Ee]. rewrite Ee. exists e. reflexivity.
Qed.
Lemma shards_at_len {A} P (xs : list A) : forall old new, shards_at P xs old new -> length xs = length old.
Proof. induction xs as [|x xs IH]; intros [|o old] [|f new] H; cbn [shards_at] in H; try contradiction; auto. cbn [length]. f_equal. eapply IH, H. Qed.

(** * The configuration *)
Lemma cfg_cut c f : cfg_values c -> consistent c ->
  wops_cut [(0%nat, marshal c); (length (marshal c), [10])] [] f -> Json.read_config (Some f) = Err EOther \/ Json.read_config (Some f) = Ok c.
Proof.
  intros V Co W.
  assert (P0 : forall d, pwrite [] 0 d = d) by (intros d; unfold pwrite; cbn [firstn length Nat.sub repeat app]; rewrite skipn_nil, app_nil_r; reflexivity).
  assert (Pre : forall pre post, marshal c = pre ++ post -> Json.read_config (Some pre) = Err EOther \/ Json.read_config (Some pre) = Ok c).
  { intros pre [|b post] E; [right|left; apply (cut_config c pre (b :: post) V E); discriminate]. rewrite app_nil_r in E. subst pre.
    apply read_parsed; auto. unfold json_parse. destruct (marshal_reads c V) as [(h & t & Eh & Hs) R].
    replace (skip_space (marshal c)) with (marshal c) by (rewrite Eh, skip_none by exact Hs; reflexivity).
    rewrite <- (app_nil_r (marshal c)) at 2. rewrite R by (reflexivity || lia). reflexivity. }
  assert (Full : Json.read_config (Some (pwrite (marshal c) (length (marshal c)) [10])) = Ok c).
  { change (pwrite (marshal c) (length (marshal c)) [10]) with (pwrite (marshal c) (length (marshal c)) [10]).
    rewrite <- (P0 (marshal c)) at 1. change (Json.read_config (Some (config_write None c)) = Ok c).
    apply read_back_short; auto. cbn [content length]. lia. }
  inversion W as [? ?|off d1 d2 ws f0 E1|off d ws f0 f' W' E1 E2 E3]; subst.
  - apply (Pre [] (marshal c)). reflexivity.
  - rewrite P0. apply (Pre d1 d2). congruence.
  - rewrite P0 in W'. inversion W' as [? ?|off d1 d2 ws f0 E1|off d ws f0 f' W'' E1 E2 E3]; subst.
    + apply (Pre (marshal c) []). rewrite app_nil_r. reflexivity.
    + destruct d1 as [|b [|? ?]]; cbn [app] in *; [| |discriminate].
      * apply (Pre (pwrite (marshal c) (length (marshal c)) []) []). unfold pwrite. cbn [length app]. rewrite firstn_all, Nat.sub_diag. cbn [repeat app].
        rewrite Nat.add_0_r, skipn_all, !app_nil_r. reflexivity.
      * right. assert (b = 10) as -> by congruence. exact Full.
    + inversion W''; subst. right. exact Full.
Qed.

Section C.
  Variables (u : unicode) (c : config) (k m n : nat).
  Hypothesis F : cfg_full c k m n.
  Hypothesis V : cfg_values c.
  Let O : cfg_ok c k m n := cu_ok _ _ _ _ F.
  Let Hn : N.of_nat n < 65536 := cu_n _ _ _ _ F.
  Let Hfl : (1 <= cf_flush c)%Z := cu_flush _ _ _ _ F.

  Lemma full_consistent : consistent c.
  Proof. unfold consistent. rewrite (co_seqlen _ _ _ _ O), (co_blot _ _ _ _ O). cbn [bc_interleave bc_seqlen]. lia. Qed.
  Lemma cfg_back : Json.read_config (Some (config_write None c)) = Ok c.
  Proof. apply read_back_short; [exact V|apply full_consistent|]. cbn [content length]. lia. Qed.
  (** The files of a finished session, opened, are those of [Model/Session]. *)
  Lemma open_files_of sorted dirs dk : dirs (cf_root c) = files_of dk -> k_cfg dk = Some c ->
    open_files sorted dirs (cf_root c) = open_index sorted dk /\ open_indexer_files dirs (cf_root c) = open_indexer dk.
  Proof.
    intros E Ec. unfold open_files, open_indexer_files, open_index, open_indexer, read_config. rewrite !E, Ec. cbn [files_of w_cfg]. rewrite Ec. cbn [option_map].
    rewrite cfg_back, (check_ok c k m n O Hn). cbn [bind]. rewrite E. cbn [files_of w_dmd w_fnames w_shards].
    change (map (fun p : bytes * bytes => (Some (fst p), Some (snd p))) (k_shards dk)) with (map some_pair (k_shards dk)).
    rewrite !for_files_some. split; reflexivity.
  Qed.

  Lemma closed_opens sorted x hist : closed_files (shard_close x) hist -> bounded hist -> opens (shard_open sorted) x /\ opens shard_append x.
  Proof.
    clear F V O Hn Hfl. intros C B. pose proof C as (y & log & J & Fl & Sz & E). destruct (shard_open_spec sorted _ _ C B) as (si & Es & _).
    pose proof (shard_inv_table_ok _ _ _ J Sz) as T. assert (L : length (x_ind y) = num_slots) by (destruct J; assumption).
    split; constructor.
    - eauto.
    - intros pre post pos Ep Np. rewrite E in Ep. cbn [fst] in Ep. eapply open_cut; eauto.
    - intros pos. apply (open_created sorted iix_created []). rewrite app_nil_r. reflexivity.
    - exists y. rewrite E. cbn [fst snd]. eapply shard_append_spec; eauto.
    - intros pre post pos Ep Np. rewrite E in Ep. cbn [fst] in Ep. eapply append_cut_err; eauto.
    - intros pos. apply (append_created iix_created []). rewrite app_nil_r. reflexivity.
  Qed.

  (** Opening gets as far as the shards, or fails. *)
  Definition fails {A} (r : result A) : Prop := exists e, r = Err e.
  Lemma open_fails sorted dirs fs : dirs (cf_root c) = fs ->
    (forall f, w_cfg fs = Some f -> Json.read_config (Some f) = Err EOther \/ Json.read_config (Some f) = Ok c) ->
    (w_fnames fs <> None -> (forall f, w_fnames fs = Some f -> (exists fn, read_fnames f = Ok fn) \/ fails (read_fnames f)) /\
      fails (for_files (shard_open sorted) n (w_shards fs)) /\ fails (for_files shard_append n (w_shards fs))) ->
    fails (open_files sorted dirs (cf_root c)) /\ fails (open_indexer_files dirs (cf_root c)).
  Proof.
    intros E C S. unfold open_files, open_indexer_files. rewrite !E.
    destruct (w_cfg fs) as [f|]; [|cbn [Json.read_config bind]; split; exists EOther; reflexivity].
    destruct (C f eq_refl) as [E1|E1]; rewrite E1; cbn [bind]; [split; exists EOther; reflexivity|]. rewrite E.
    assert (Ns : (cf_numshards c <? 0)%Z = false) by (rewrite (co_shards _ _ _ _ O); lia). rewrite !Ns, (co_shards _ _ _ _ O), Nat2Z.id.
    assert (Ea : exists a, new_adder (w_dmd fs) (cf_flush c) = Ok a).
    { unfold new_adder. assert ((cf_flush c <? 1)%Z = false) as -> by lia. assert ((cf_flush c <? 0)%Z = false) as -> by lia.
      destruct (w_dmd fs); [destruct (_ =? 0)|]; eauto. }
    destruct Ea as [a Ea]. rewrite Ea. cbn [bind].
    destruct (w_fnames fs) as [nm|] eqn:En; cbn [read_some].
    2: { cbn [bind]. split; [|exists EOther; reflexivity]. destruct (w_dmd fs); cbn [bind read_some]; exists EOther; reflexivity. }
    destruct S as (S1 & (e1 & S2) & (e2 & S3)); [discriminate|]. rewrite S2, S3, (token_ok c k m n O).
    destruct (S1 nm eq_refl) as [(fn & Ef)|(e & Ef)]; rewrite Ef; cbn [bind].
    - split; [|exists e2; reflexivity]. destruct (w_dmd fs); cbn [bind read_some]; eexists; reflexivity.
    - split; [|exists e; reflexivity]. destruct (w_dmd fs); cbn [bind read_some]; eexists; reflexivity.
  Qed.

  Theorem create_stopped_open sorted docs fs dirs : docs_fit docs -> create_stopped u c docs fs -> dirs (cf_root c) = fs ->
    (fails (open_files sorted dirs (cf_root c)) /\ fails (open_indexer_files dirs (cf_root c))) \/
    exists dk, session u (create_indexer c) docs dk /\ fs = files_of dk /\
      open_files sorted dirs (cf_root c) = open_index sorted dk /\ open_indexer_files dirs (cf_root c) = open_indexer dk.
  Proof.
    intros Fit St Ed. inversion St as [i sh rest Hi Hsh Hr Efs|x ws ? Ec St'].
    { left. apply (open_fails sorted dirs _ Ed); rewrite <- Efs; cbn [w_cfg w_fnames]; [discriminate|contradiction]. }
    rewrite (co_shards _ _ _ _ O), Nat2Z.id in St'.
    inversion St' as [st done rest req fn dm ids f sh H1 H2 H3 H4 H5 H6|st fn dm ids fs1 H1 H2 H3 H4]; subst.
    { left. apply (open_fails sorted dirs _ eq_refl); rewrite <- H0; cbn [w_cfg w_fnames]; [discriminate|contradiction]. }
    assert (X : x_cfg x = c).
    { destruct (create_start u c k m n O Hn Hfl) as (x' & ws' & E' & I). rewrite Ec in E'. assert (x' = x) as -> by congruence. apply (xi_cfg _ _ _ _ _ _ _ _ _ _ I). }
    pose proof (Session u _ _ _ _ _ _ _ _ _ Ec H3 H1 H2) as Ss.
    destruct (words_total u docs) as [wss Ww].
    destruct (create_start u c k m n O Hn Hfl) as (x' & ws' & E' & I).
    destruct (session_inv u c k m n O Hn _ x' ws' [] [] [] docs wss E' I Fit (Forall2_nil _) Ww) as (A & _).
    destruct (A _ Ss) as (fn' & fs' & D).
    assert (B : forall j, (j < n)%nat -> bounded (posts_for (word_hash u) k m n j 0 wss)).
    { intros j Lj. pose proof (df_len _ Fit) as L1. pose proof (words_of_len _ _ _ Ww) as L2. change (2 ^ 32) with 4294967296 in L1.
      apply posts_bounded; [apply (co_n _ _ _ _ O)|exact Lj|unfold nlen in *; lia|eapply words_of_small, Ww]. }
    set (xs := map v_shard (s_servers st)) in *.
    assert (Lx : length xs = n) by (pose proof (di_shards _ _ _ _ _ _ _ _ _ _ D) as L; cbn [k_shards] in L; rewrite map_length in L; exact L).
    assert (Op : Forall (opens (shard_open sorted)) xs /\ Forall (opens shard_append) xs).
    { split; apply Forall_forall; intros y Hy; apply In_nth_error in Hy; destruct Hy as [j Hj];
        (destruct (closed_opens sorted y (posts_for (word_hash u) k m n j 0 wss)) as [P1 P2];
         [apply (di_closed _ _ _ _ _ _ _ _ _ _ D); cbn [k_shards]; rewrite nth_error_map, Hj; reflexivity|apply B; rewrite <- Lx; eapply nth_len, Hj|]); assumption. }
    assert (Nx : xs <> []) by (pose proof (co_n _ _ _ _ O); intros ->; cbn [length] in Lx; lia).
    assert (New1 : forall pos, fails (shard_open sorted iix_created pos)).
    { intros pos. apply (open_created sorted iix_created []). rewrite app_nil_r. reflexivity. }
    assert (New2 : forall pos, fails (shard_append iix_created pos)).
    { intros pos. apply (append_created iix_created []). rewrite app_nil_r. reflexivity. }
    assert (Rf : exists v, read_fnames (fn_write fn) = Ok v).
    { pose proof (di_fnames _ _ _ _ _ _ _ _ _ _ D) as E1. cbn [k_fnames] in E1. assert (fn_write fn = fn_write fn') as -> by congruence.
      destruct (reload_spec fn' (di_wf _ _ _ _ _ _ _ _ _ _ D)) as (e & Ee & _). eauto. }
    inversion H4 as [f sh W S E|pre post sh W S E|f sh W S E|sh S E]; cbn [w_shards w_cfg w_fnames] in *; rewrite ?X in *; fold xs in S.
    - left. apply (open_fails sorted dirs _ eq_refl); rewrite <- E; cbn [w_cfg w_fnames]; [|contradiction].
      intros f' Ef. assert (f' = f) as -> by congruence. apply cfg_cut; auto using full_consistent.
    - left. apply (open_fails sorted dirs _ eq_refl); rewrite <- E; cbn [w_cfg w_fnames w_shards].
      + intros f' Ef. right. assert (f' = config_write None c) as -> by congruence. apply cfg_back.
      + intros _. rewrite <- Lx in S |- *. split; [|split; eapply still_new; eauto].
        intros f' Ef. assert (f' = pre) as -> by congruence. destruct Rf as [v Ev]. rewrite W in Ev. destruct (fnames_cut _ _ _ Ev) as [Y|Y]; [left; eauto|right; exact Y].
    - left. apply (open_fails sorted dirs _ eq_refl); rewrite <- E; cbn [w_cfg w_fnames w_shards].
      + intros f' Ef. right. assert (f' = config_write None c) as -> by congruence. apply cfg_back.
      + intros _. rewrite <- Lx in S |- *. split; [|split; eapply still_new; eauto].
        intros f' Ef. assert (f' = fn_write fn) as -> by congruence. left. exact Rf.
    - rewrite <- Lx in S. destruct Op as [Op1 Op2].
      assert (Whole : sh = map some_pair (map shard_close xs) -> exists dk, session u (create_indexer c) docs dk /\ dirs (cf_root c) = files_of dk /\
        open_files sorted dirs (cf_root c) = open_index sorted dk /\ open_indexer_files dirs (cf_root c) = open_indexer dk).
      { intros Eh.
        assert (Fs : dirs (cf_root c) = files_of (MkDisk (Some c) (adder_close dm) (Some (fn_write fn)) (map shard_close xs))).
        { rewrite <- E. unfold files_of. cbn [k_cfg k_dmd k_fnames k_shards option_map]. rewrite Eh. reflexivity. }
        eexists. split; [exact Ss|]. split; [exact Fs|]. apply open_files_of; [exact Fs|]. reflexivity. }
      destruct (closing_cases _ _ Op1 sh S) as [Y1|Y1]; [|right; rewrite E; exact (Whole Y1)].
      destruct (closing_cases _ _ Op2 sh S) as [Y2|Y2]; [|right; rewrite E; exact (Whole Y2)].
      left. apply (open_fails sorted dirs _ eq_refl); rewrite <- E; cbn [w_cfg w_fnames w_shards].
      + intros f' Ef. right. assert (f' = config_write None c) as -> by congruence. apply cfg_back.
      + intros _. rewrite <- Lx. split; [|split; [exact Y1|exact Y2]]. intros f' Ef. assert (f' = fn_write fn) as -> by congruence. left. exact Rf.
  Qed.
End C.
