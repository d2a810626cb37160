(** Sessions whose Close fails. *)
From Verif Require Import Model.Base Model.Address Model.Varint Model.Utf8 Model.Token Model.Blotter Model.Post Model.Poster Model.Shatter Model.Shard Model.Dmd Model.Fnames Model.Conc Model.Config Model.Json Model.Run Model.Index Model.Query Model.Session Model.Crash Model.CloseFault.
From Verif Require Import Spec.Text Spec.Fingerprint Spec.Configs Spec.Posting Spec.Postings Spec.Paths Spec.Reading Spec.Querying Spec.History.
From Verif Require Import Proof.Tactics Proof.VarintP Proof.TokenP Proof.BlotterP Proof.ShatterP Proof.IndexP2 Proof.DmdP Proof.FnamesP Proof.FnamesP2 Proof.PosterP Proof.ShardP Proof.ConcP Proof.ConcRun Proof.QueryP Proof.JsonP Proof.ConfigP Proof.SessionP Proof.SessionP2 Proof.JsonP2 Proof.CutP Proof.CrashP Proof.KeepP Proof.CrashP2 Proof.CrashP3 Proof.CloseFaultP.
Local Open Scope N_scope.

(** When Close has begun, the caller of Add is done. *)
Section Steps.
  Context {W D P S : Type}.
  Variables (work : W -> N -> D -> result (W * list (list P))) (absorb : S -> P -> S).
  Definition callers_done (st : state (W := W) (D := D) (P := P) (S := S)) : Prop :=
    length (s_clients st) = 1%nat /\ (s_main st = MRun \/ Forall client_done (s_clients st)).
  Lemma step_callers st st' : step work absorb st st' -> callers_done st -> callers_done st'.
  Proof.
    intros H [L A]. assert (X : forall i (c : client) d r, nth_error (s_clients st) i = Some c -> Forall client_done (s_clients st) -> cl_docs c = d :: r -> False).
    { intros i c d r E Fo Ec. rewrite Forall_forall in Fo. destruct (Fo c) as [_ Y]; [eapply nth_error_In, E|congruence]. }
    assert (X2 : forall i (c : client) p, nth_error (s_clients st) i = Some c -> Forall client_done (s_clients st) -> cl_send c = Some p -> False).
    { intros i c p E Fo Ec. rewrite Forall_forall in Fo. destruct (Fo c) as [Y _]; [eapply nth_error_In, E|congruence]. }
    inversion H; subst; unfold callers_done; cbn [set_client set_next set_main set_worker set_workers set_mutex set_mono set_server s_clients s_main]; rewrite ?upd_length;
      split; try exact L; try (destruct A as [A|A]; [left; exact A|right; exact A]); try (right; destruct A as [A|A]; [congruence|exact A]).
    - left. destruct A as [A|A]; [exact A|]. exfalso. eapply X; eauto.
    - left. destruct A as [A|A]; [exact A|]. exfalso. eapply X2; eauto.
  Qed.
  Lemma steps_callers st st' : steps work absorb st st' -> callers_done st -> callers_done st'.
  Proof. induction 1; intros A; auto. eapply step_callers; eauto. Qed.
End Steps.

Section A.
  Variables (u : unicode) (c : config) (k m n : nat).
  Hypothesis F : cfg_full c k m n.
  Hypothesis V : cfg_values c.
  Let O : cfg_ok c k m n := cu_ok _ _ _ _ F.
  Let Hn : N.of_nat n < 65536 := cu_n _ _ _ _ F.
  Let Hfl : (1 <= cf_flush c)%Z := cu_flush _ _ _ _ F.

  Lemma serving_open xs : forall (vs : list (server (P := post))) old, xs = map v_shard vs -> length old = length xs -> shards_at serving vs old (shards_open xs old).
  Proof.
    clear. induction xs as [|x xs IH]; intros [|v vs] [|p old] E L; cbn [map length] in *; try discriminate; cbn [shards_open shards_at]; [exact I|].
    injection E as -> ->. split; [apply serving_between|]. apply IH; [reflexivity|]. congruence.
  Qed.
  (** A failed Close leaves what a stopped one may leave. *)
  Lemma closed_stopped x ws old docs st fn dm ids o os fs o' os' ok :
    doc_ids (x_fnames x) (x_dmds x) docs = Ok (fn, dm, ids) ->
    session_steps u (x_cfg x) (session_start (adder_last (fst (x_dmds x))) ws (x_shards x) (requests docs)) st ->
    s_main st = MChan (length (s_servers st)) -> length (w_shards old) = length (s_servers st) -> length os = length (s_servers st) ->
    indexer_close_c (x_cfg x) (map v_shard (s_servers st)) old fn dm o os = (fs, o', os', ok) ->
    (ok = true -> fs = MkFiles (Some (config_write (w_cfg old) (x_cfg x))) (adder_close dm) (Some (fn_write fn)) (map some_pair (map shard_close (map v_shard (s_servers st))))) /\
    (ok = false -> Crash.stopped u x ws old docs fs).
  Proof.
    clear F V O Hn Hfl. intros Ed St Em L1 L2 E.
    destruct (indexer_close_c_spec x _ old fn dm o os fs o' os' ok ltac:(rewrite map_length; exact L1) ltac:(rewrite map_length; exact L2) E) as (_ & T & Fa).
    split; [exact T|]. intros K. destruct (Fa K) as [->|C].
    - eapply (stopped_running u x ws old docs st docs [] None fn dm ids).
      + exact St.
      + rewrite app_nil_r. reflexivity.
      + destruct (steps_callers _ _ _ _ St) as [Lc A]. { unfold callers_done, session_start, init. cbn [s_clients s_main map length]. auto. }
        destruct A as [A|A]; [congruence|]. destruct (s_clients st) as [|[a b] [|? ?]]; try discriminate. inversion A as [|? ? [Y1 Y2] _]; subst. cbn [cl_send cl_docs] in *. subst. reflexivity.
      + exact Ed.
      + reflexivity.
      + apply serving_open; [reflexivity|]. rewrite map_length. exact L1.
    - eapply stopped_closing; eauto.
  Qed.

  Lemma servers_n x ws docs st : length (x_shards x) = n ->
    session_steps u (x_cfg x) (session_start (adder_last (fst (x_dmds x))) ws (x_shards x) (requests docs)) st -> length (s_servers st) = n.
  Proof.
    clear F V O Hn Hfl. intros L St.
    destruct (steps_shards _ _ (fun _ _ => True) ltac:(auto) n _ _ St) as [Y _]; [|exact Y].
    unfold session_start, init. split; cbn [s_servers]; [rewrite map_length; exact L|]. auto.
  Qed.
  Theorem created_closed docs o os fs ok : length os = n ->
    closed_session u (create_indexer c) (MkFiles None None None (repeat new_shard_files n)) docs o os fs ok ->
    (ok = true -> exists dk, history u c [docs] dk /\ fs = files_of dk) /\ (ok = false -> create_stopped u c docs fs).
  Proof.
    intros Lo [x ws fn dm ids st fs' o' os' ok' Ex Ed St Em E].
    destruct (create_start u c k m n O Hn Hfl) as (x1 & ws1 & E1 & I). rewrite Ex in E1. assert (x1 = x) as -> by congruence. assert (ws1 = ws) as -> by congruence.
    pose proof (xi_cfg _ _ _ _ _ _ _ _ _ _ I) as Xc. pose proof (xi_shards _ _ _ _ _ _ _ _ _ _ I) as Lx.
    pose proof (servers_n x ws docs st Lx St) as Ls.
    destruct (closed_stopped x ws (MkFiles None None None (repeat new_shard_files n)) docs st fn dm ids o os fs' o' os' ok' Ed St Em) as [T Fa]; auto.
    { cbn [w_shards]. rewrite repeat_length. congruence. } { congruence. }
    split.
    - intros K. eexists. split; [constructor; exact (Session u _ _ _ _ _ _ _ _ _ Ex Ed St Em)|]. rewrite (T K). unfold files_of. cbn [k_cfg k_dmd k_fnames k_shards option_map w_cfg].
      reflexivity.
    - intros K. eapply create_later; [exact Ex|]. rewrite (co_shards _ _ _ _ O), Nat2Z.id. exact (Fa K).
  Qed.
  Theorem appended_closed ss dk docs o os fs ok : history u c ss dk -> docs_fit (all_docs ss) -> length os = n ->
    closed_session u (open_indexer dk) (files_of dk) docs o os fs ok ->
    (ok = true -> exists dk', history u c (docs :: ss) dk' /\ fs = files_of dk') /\ (ok = false -> append_stopped u dk docs fs).
  Proof.
    intros Hi Fit0 Lo [x ws fn dm ids st fs' o' os' ok' Ex Ed St Em E].
    destruct (words_total u (all_docs ss)) as [w0 W0]. destruct (history_inv u c k m n O Hn Hfl ss dk Hi Fit0 w0 W0) as (fn0 & fs0 & D).
    pose proof (df_len _ Fit0) as L0. change (2 ^ 32) with 4294967296 in L0.
    destruct (open_start u c k m n O Hn Hfl _ _ _ _ _ D ltac:(lia)) as (x1 & ws1 & E1 & I). rewrite Ex in E1. assert (x1 = x) as -> by congruence. assert (ws1 = ws) as -> by congruence.
    pose proof (xi_cfg _ _ _ _ _ _ _ _ _ _ I) as Xc. pose proof (xi_shards _ _ _ _ _ _ _ _ _ _ I) as Lx.
    pose proof (servers_n x ws docs st Lx St) as Ls.
    destruct (closed_stopped x ws (files_of dk) docs st fn dm ids o os fs' o' os' ok' Ed St Em) as [T Fa]; auto.
    { unfold files_of. cbn [w_shards]. rewrite map_length, (di_shards _ _ _ _ _ _ _ _ _ _ D). congruence. } { congruence. }
    split.
    - intros K. eexists. split; [eapply history_append; [exact Hi|]; exact (Session u _ _ _ _ _ _ _ _ _ Ex Ed St Em)|]. rewrite (T K). unfold files_of at 1. cbn [w_cfg].
      rewrite (di_cfg _ _ _ _ _ _ _ _ _ _ D), Xc. cbn [option_map]. rewrite config_same. reflexivity.
    - intros K. eapply append_later; [exact Ex|]. exact (Fa K).
  Qed.

  (** The first write to the file names fails. *)
  Lemma names_lost sorted dirs fs dm : dirs (cf_root c) = fs -> w_cfg fs = Some (config_write None c) -> w_dmd fs = dm -> w_fnames fs = Some [] ->
    fails (open_files sorted dirs (cf_root c)) /\ fails (open_indexer_files dirs (cf_root c)).
  Proof.
    intros E Ec Ed En. unfold open_files, open_indexer_files. rewrite E, Ec, (cfg_back c k m n F V). cbn [bind]. rewrite E, Ed, En. cbn [read_some].
    assert (Er : read_fnames [] = Err EOF) by reflexivity. rewrite Er.
    assert (Ns : (cf_numshards c <? 0)%Z = false) by (rewrite (co_shards _ _ _ _ O); lia). rewrite Ns. split.
    - destruct dm; cbn [read_some bind]; eexists; reflexivity.
    - assert (Ea : exists a, new_adder dm (cf_flush c) = Ok a).
      { unfold new_adder. assert ((cf_flush c <? 1)%Z = false) as -> by lia. assert ((cf_flush c <? 0)%Z = false) as -> by lia.
        destruct dm; [destruct (_ =? 0)|]; eauto. }
      destruct Ea as [a Ea]. rewrite Ea. cbn [bind]. eexists; reflexivity.
  Qed.
  Theorem close_destroys ss dk docs : history u c ss dk -> docs_fit (all_docs ss ++ docs) -> (0 < cf_numshatters c)%Z ->
    exists fs, closed_session u (open_indexer dk) (files_of dk) docs [None; None; None; None; Some 0%nat] (repeat [] n) fs false /\
      forall sorted dirs, dirs (cf_root c) = fs -> fails (open_files sorted dirs (cf_root c)) /\ fails (open_indexer_files dirs (cf_root c)).
  Proof.
    intros Hi Fit Hsh. pose proof (fit_app _ _ Fit) as Fit0.
    destruct (words_total u (all_docs ss)) as [w0 W0]. destruct (words_total u docs) as [w1 W1].
    destruct (history_inv u c k m n O Hn Hfl ss dk Hi Fit0 w0 W0) as (fn0 & fs0 & D).
    pose proof (df_len _ Fit0) as L0. pose proof (df_len _ Fit) as L1. change (2 ^ 32) with 4294967296 in L0, L1.
    destruct (open_start u c k m n O Hn Hfl _ _ _ _ _ D ltac:(lia)) as (x & ws & E & I).
    destruct (session_inv u c k m n O Hn _ x ws _ _ _ docs w1 E I Fit W0 W1) as (_ & _ & (fn & dm & Ed) & La).
    pose proof (xi_cfg _ _ _ _ _ _ _ _ _ _ I) as Xc.
    destruct (completes u c k m n ws (nlen (all_docs ss)) (requests docs) (x_shards x) O) as (st & St & Fi); auto.
    { change (2 ^ 32) with 4294967296. clear - Hn. lia. } { apply (xi_ws _ _ _ _ _ _ _ _ _ _ I). }
    { change (2 ^ 32) with 4294967296. unfold requests, nlen in *. rewrite map_length. rewrite app_length in L1. clear - L1. lia. }
    { apply (xi_shards _ _ _ _ _ _ _ _ _ _ I). }
    destruct Fi as (_ & Em & _). rewrite <- La, <- Xc in St.
    assert (Wc : w_cfg (files_of dk) = Some (config_write None c)).
    { unfold files_of. cbn [w_cfg]. rewrite (di_cfg _ _ _ _ _ _ _ _ _ _ D). reflexivity. }
    assert (Ec : config_write_c (w_cfg (files_of dk)) (x_cfg x) [None; None; None; None; Some 0%nat] = (Some (config_write (w_cfg (files_of dk)) c), [None; Some 0%nat], true)) by (rewrite Xc; reflexivity).
    rewrite Wc in Ec. rewrite config_same in Ec.
    eexists. split.
    - eapply ClosedSession; [exact E|exact Ed|exact St|exact Em|]. unfold indexer_close_c. rewrite Wc, Ec. cbn [negb]. reflexivity.
    - intros sorted dirs Edr. eapply names_lost; [exact Edr|reflexivity|reflexivity|reflexivity].
  Qed.

  (** Every session reaches Close, and Close ends whatever the outcomes of its calls. *)
  Lemma closes start x ws docs0 w0 fs0 docs o os old : (0 < cf_numshatters c)%Z -> start = Ok (x, ws) -> start_inv u c k m n docs0 w0 fs0 x ws ->
    docs_fit (docs0 ++ docs) -> words_of (word_char u) docs0 w0 -> exists fs ok, closed_session u start old docs o os fs ok.
  Proof.
    intros Hsh E I Fit W0. destruct (words_total u docs) as [w1 W1]. pose proof (df_len _ Fit) as L1. change (2 ^ 32) with 4294967296 in L1.
    destruct (session_inv u c k m n O Hn _ x ws _ _ _ docs w1 E I Fit W0 W1) as (_ & _ & (fn & dm & Ed) & La).
    pose proof (xi_cfg _ _ _ _ _ _ _ _ _ _ I) as Xc.
    destruct (completes u c k m n ws (nlen docs0) (requests docs) (x_shards x) O) as (st & St & Fi); auto.
    { change (2 ^ 32) with 4294967296. clear - Hn. lia. } { apply (xi_ws _ _ _ _ _ _ _ _ _ _ I). }
    { change (2 ^ 32) with 4294967296. unfold requests, nlen in *. rewrite map_length. rewrite app_length in L1. clear - L1. lia. }
    { apply (xi_shards _ _ _ _ _ _ _ _ _ _ I). }
    destruct Fi as (_ & Em & _). rewrite <- La, <- Xc in St.
    destruct (indexer_close_c (x_cfg x) (map v_shard (s_servers st)) old fn dm o os) as [[[fs o'] os'] ok] eqn:Ec.
    exists fs, ok. eapply ClosedSession; eauto.
  Qed.
  Lemma created_closes : (0 < cf_numshatters c)%Z -> forall docs o os, docs_fit docs ->
    exists fs ok, closed_session u (create_indexer c) (MkFiles None None None (repeat new_shard_files n)) docs o os fs ok.
  Proof.
    intros Hsh docs o os Fit. destruct (create_start u c k m n O Hn Hfl) as (x & ws & E & I). eapply closes; [exact Hsh|exact E|exact I|exact Fit|constructor].
  Qed.
  Lemma appended_closes : (0 < cf_numshatters c)%Z -> forall ss dk docs o os, history u c ss dk -> docs_fit (all_docs ss ++ docs) ->
    exists fs ok, closed_session u (open_indexer dk) (files_of dk) docs o os fs ok.
  Proof.
    intros Hsh ss dk docs o os Hi Fit. pose proof (fit_app _ _ Fit) as Fit0. destruct (words_total u (all_docs ss)) as [w0 W0].
    destruct (history_inv u c k m n O Hn Hfl ss dk Hi Fit0 w0 W0) as (fn0 & fs0 & D). pose proof (df_len _ Fit0) as L0. change (2 ^ 32) with 4294967296 in L0.
    destruct (open_start u c k m n O Hn Hfl _ _ _ _ _ D ltac:(lia)) as (x & ws & E & I). eapply closes; eauto.
  Qed.
End A.
