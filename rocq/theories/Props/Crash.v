(** C36, C37: sessions that are stopped. *)
From Coq Require Import String.
From Verif Require Import Model.Base Model.Utf8 Model.Token Model.Blotter Model.Post Model.Poster Model.Shatter Model.Shard Model.Dmd Model.Fnames Model.Conc Model.Config Model.Json Model.Run Model.Index Model.Query Model.Session Model.Crash.
From Verif Require Import Spec.Text Spec.Fingerprint Spec.Configs Spec.Paths Spec.Reading Spec.Querying Spec.History Spec.Str.
From Verif Require Import Proof.Tactics Proof.TokenP Proof.BlotterP Proof.ShardP Proof.QueryP Proof.QueryW Proof.SortP Proof.SessionP Proof.SessionP2 Proof.CrashP Proof.CrashP2 Proof.CrashP3.
Local Open Scope N_scope.
Local Open Scope list_scope.

(** C36: [create_stopped u c docs fs]: a session that creates an index and adds [docs] can
    have left the files [fs] at some point, Close included. Then opening the index (for
    reading or for appending) is an error, or it is as after a completed session (to which
    C26-C32 apply). *)
Theorem C36_no_half_written_index : forall u c k m n, cfg_full c k m n -> cfg_values c ->
  forall sorted docs fs dirs, docs_fit docs -> create_stopped u c docs fs -> dirs (cf_root c) = fs ->
  ((exists e, open_files sorted dirs (cf_root c) = Err e) /\ (exists e, open_indexer_files dirs (cf_root c) = Err e)) \/
  exists dk, history u c [docs] dk /\ fs = files_of dk /\
    open_files sorted dirs (cf_root c) = open_index sorted dk /\ open_indexer_files dirs (cf_root c) = open_indexer dk.
Proof.
  intros u c k m n F V sorted docs fs dirs Fit St Ed. destruct (create_stopped_open u c k m n F V sorted docs fs dirs Fit St Ed) as [X|(dk & S & X)]; [left; exact X|].
  right. exists dk. split; [constructor; exact S|exact X].
Qed.
(** In terms of queries. *)
Theorem C36_no_wrong_answers : forall u c k m n, cfg_full c k m n -> cfg_values c ->
  forall sorted docs wss fs dirs, sorts sorted -> docs_fit docs -> words_of (word_char u) docs wss ->
  create_stopped u c docs fs -> dirs (cf_root c) = fs ->
  (exists e, open_files sorted dirs (cf_root c) = Err e) \/
  exists ix, open_files sorted dirs (cf_root c) = Ok ix /\
  forall grow blot fuel, (List.length docs < fuel)%nat ->
  exists ds, query_get grow ix fuel blot None = Ok ds /\
    docs_keys ds = map (place_of docs) (carriers (word_hash u) k m n 0 wss (blot mod (N.of_nat n * 65536))).
Proof.
  intros u c k m n F V sorted docs wss fs dirs Hs Fit Ww St Ed.
  destruct (C36_no_half_written_index u c k m n F V sorted docs fs dirs Fit St Ed) as [[X _]|(dk & H & _ & E & _)]; [left; exact X|].
  right. rewrite E. rewrite <- (all_docs_one docs) in Fit, Ww.
  destruct (query_exact u c k m n sorted F Hs [docs] dk wss H Fit Ww) as (ix & Ex & Q). rewrite all_docs_one in Q. exists ix. split; [exact Ex|exact Q].
Qed.
(** Both cases happen: a session can be stopped with everything written. *)
Theorem C36_complete_is_reached : forall u c k m n, cfg_full c k m n -> cfg_values c -> (0 < cf_numshatters c)%Z ->
  forall docs, docs_fit docs -> exists dk, history u c [docs] dk /\ create_stopped u c docs (files_of dk).
Proof. intros u c k m n F _ Hs docs Fit. exact (create_stopped_end u c k m n F docs Fit Hs). Qed.
Print Assumptions C36_complete_is_reached.
Print Assumptions C36_no_half_written_index.
Print Assumptions C36_no_wrong_answers.

(** C37 fails: whatever is in the index and whatever is appended, if the session is stopped
    when Close has truncated the tables of the shards, the index cannot be opened any more. *)
Theorem C37_append_can_destroy_refuted : forall u c k m n, cfg_full c k m n -> cfg_values c -> (0 < cf_numshatters c)%Z ->
  forall ss dk docs, history u c ss dk -> docs_fit (all_docs ss ++ docs) ->
  exists fs, append_stopped u dk docs fs /\ forall sorted dirs, dirs (cf_root c) = fs ->
    (exists e, open_files sorted dirs (cf_root c) = Err e) /\ (exists e, open_indexer_files dirs (cf_root c) = Err e).
Proof. intros u c k m n F V Hs ss dk docs Hi Fit. exact (append_stopped_fails u c k m n F V ss dk docs Hi Fit Hs). Qed.
(** What holds: as long as Close has not begun to write the file names and the tables (so
    at any point before Close and, of Close, while it writes the configuration), each query
    for up to as many documents as the blot had gives them. Missing: the time while Close
    writes the file names and the tables; a query with more room (it may fail, or give new
    documents as well). *)
Theorem C37_append_keeps_partial : forall u c k m n, cfg_full c k m n -> cfg_values c ->
  forall sorted ss dk wss docs fs dirs, sorts sorted -> history u c ss dk -> docs_fit (all_docs ss) ->
  words_of (word_char u) (all_docs ss) wss -> append_stopped u dk docs fs -> dirs (cf_root c) = fs ->
  w_fnames fs = k_fnames dk -> map fst (w_shards fs) = map (fun p => Some (fst p)) (k_shards dk) ->
  exists ix, open_files sorted dirs (cf_root c) = Ok ix /\
  forall grow blot fuel back,
    let ids := carriers (word_hash u) k m n 0 wss (blot mod (N.of_nat n * 65536)) in
    (List.length back <= List.length ids)%nat -> (List.length (all_docs ss) < fuel)%nat ->
    exists ds, query_get grow ix fuel blot (Some (0%nat, back)) = Ok ds /\
      docs_keys ds = map (place_of (all_docs ss)) (firstn (List.length back) ids).
Proof. intros u c k m n F V. exact (append_stopped_reads u c k m n F V). Qed.
(** And whenever the session is stopped, Close included: opening fails with an error, or the
    documents of the earlier sessions are all there, as far as queries for no more documents
    than the blot had can tell. *)
Theorem C37_error_or_kept_partial : forall u c k m n, cfg_full c k m n -> cfg_values c ->
  forall sorted ss dk wss docs fs dirs, sorts sorted -> history u c ss dk -> docs_fit (all_docs ss ++ docs) ->
  words_of (word_char u) (all_docs ss) wss -> append_stopped u dk docs fs -> dirs (cf_root c) = fs ->
  (exists e, open_files sorted dirs (cf_root c) = Err e) \/
  exists ix, open_files sorted dirs (cf_root c) = Ok ix /\
  forall grow blot fuel back,
    let ids := carriers (word_hash u) k m n 0 wss (blot mod (N.of_nat n * 65536)) in
    (List.length back <= List.length ids)%nat -> (List.length (all_docs ss) < fuel)%nat ->
    exists ds, query_get grow ix fuel blot (Some (0%nat, back)) = Ok ds /\
      docs_keys ds = map (place_of (all_docs ss)) (firstn (List.length back) ids).
Proof. intros u c k m n F V. exact (append_stopped_any u c k m n F V). Qed.
(** Stopped at the very end, everything is there. *)
Theorem C37_end_is_reached : forall u c k m n, cfg_full c k m n -> (0 < cf_numshatters c)%Z ->
  forall ss dk docs, history u c ss dk -> docs_fit (all_docs ss ++ docs) ->
  exists dk', history u c (docs :: ss) dk' /\ append_stopped u dk docs (files_of dk').
Proof. intros u c k m n F Hs ss dk docs Hi Fit. exact (append_stopped_end u c k m n F ss dk docs Hi Fit Hs). Qed.
Print Assumptions C37_error_or_kept_partial.
Print Assumptions C37_end_is_reached.
(** Such a time is there in every session. *)
Theorem C37_start_is_reached : forall u c k m n, cfg_full c k m n ->
  forall ss dk docs, history u c ss dk -> docs_fit (all_docs ss) -> append_stopped u dk docs (files_of dk) /\
    map fst (w_shards (files_of dk)) = map (fun p => Some (fst p)) (k_shards dk).
Proof.
  intros u c k m n F ss dk docs Hi Fit. split; [exact (append_stopped_start u c k m n F ss dk docs Hi Fit)|].
  unfold files_of. cbn [w_shards]. rewrite map_map. reflexivity.
Qed.
Print Assumptions C37_start_is_reached.
Print Assumptions C37_append_can_destroy_refuted.
Print Assumptions C37_append_keeps_partial.

(** The hypotheses are met by the default configuration; a new index can be stopped such
    that it cannot be opened. *)
Example C36_C37_example : cfg_full wit_config 1 10 2 /\ cfg_values wit_config /\ (0 < cf_numshatters wit_config)%Z /\
  docs_fit wit_docs /\ docs_fit (all_docs [wit_docs] ++ wit_docs) /\
  forall u, exists fs, create_stopped u wit_config wit_docs fs.
Proof.
  split; [exact wit_full|]. split.
  { constructor; try (split; [vm_compute; discriminate|reflexivity]); apply Utf8P.utf8_valid_spec; vm_compute; reflexivity. }
  split; [reflexivity|]. split; [exact wit_fit|]. split.
  { destruct wit_fit as [A B C]. constructor; [|reflexivity|reflexivity]. rewrite all_docs_one. apply Forall_app. split; exact A. }
  intros u. eexists. apply (create_setup u wit_config wit_docs 1 (None, None) []); [reflexivity|left; reflexivity|constructor].
Qed.
