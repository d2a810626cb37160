(** C82, C83: Close when system calls fail. *)
From Coq Require Import String.
From Verif Require Import Model.Base Model.Utf8 Model.Token Model.Blotter Model.Post Model.Poster Model.Shatter Model.Shard Model.Dmd Model.Fnames Model.Conc Model.Config Model.Json Model.Run Model.Index Model.Query Model.Session Model.Crash Model.CloseFault.
From Verif Require Import Spec.Text Spec.Fingerprint Spec.Configs Spec.Paths Spec.Reading Spec.Querying Spec.History Spec.Str.
From Verif Require Import Proof.Tactics Proof.TokenP Proof.BlotterP Proof.ShardP Proof.QueryP Proof.QueryW Proof.SortP Proof.SessionP Proof.SessionP2 Proof.RootP Proof.CrashP Proof.CrashP2 Proof.CrashP3 Proof.CloseFaultP Proof.CloseFaultP2.
Local Open Scope N_scope.
Local Open Scope list_scope.

(** C82. Close returns nil exactly when all the calls it and the shards' goroutines made
    succeeded: [used] are the outcomes of the calls of the goroutine that runs Close, [useds]
    those of the shards'. *)
Theorem C82_reported : forall c xs old fn dm o os fs o' os' ok,
  List.length (w_shards old) = List.length xs -> List.length os = List.length xs ->
  indexer_close_c c xs old fn dm o os = (fs, o', os', ok) ->
  exists used useds, o = used ++ o' /\ List.length useds = List.length xs /\ List.length os' = List.length xs /\
    os = map (fun p => fst p ++ snd p) (combine useds os') /\
    (ok = true <-> Forall (fun r => r = None) used /\ Forall (Forall (fun r => r = None)) useds).
Proof.
  intros c xs old fn dm o os fs o' os' ok L1 L2 E.
  destruct (indexer_close_c_spec (MkIndexer c (MkAdder 0 0 [], None) [] []) xs old fn dm o os fs o' os' ok L1 L2 E) as ((ok1 & ok2 & (used & Eo & U) & A & ->) & _).
  assert (X : forall os os' ok2, all_use os os' ok2 -> exists useds, List.length useds = List.length os /\ List.length os' = List.length os /\
    os = map (fun p => fst p ++ snd p) (combine useds os') /\ (ok2 = true <-> Forall (Forall (fun r => r = None)) useds)).
  { clear. induction 1 as [|o o' ok os os' oks (used & -> & U) H (useds & L1 & L2 & E & V)].
    - exists []. repeat (split; [reflexivity|]). split; auto.
    - exists (used :: useds). cbn [List.length combine map fst snd]. split; [congruence|]. split; [congruence|]. split; [f_equal; exact E|].
      rewrite andb_true_iff, U, V, Forall_cons_iff. reflexivity. }
  destruct (X _ _ _ A) as (useds & Y1 & Y2 & Y3 & Y4). exists used, useds. split; [exact Eo|]. split; [congruence|]. split; [congruence|]. split; [exact Y3|].
  rewrite andb_true_iff, U, Y4. reflexivity.
Qed.
Print Assumptions C82_reported.

(** When it returns nil, all documents are in the index: of a new one ... *)
Theorem C82_nil_created : forall u c k m n, cfg_full c k m n -> cfg_values c ->
  forall sorted docs wss o os fs dirs, sorts sorted -> docs_fit docs -> words_of (word_char u) docs wss -> List.length os = n ->
  closed_session u (create_indexer c) (MkFiles None None None (repeat new_shard_files n)) docs o os fs true -> dirs (cf_root c) = fs ->
  exists ix, open_files sorted dirs (cf_root c) = Ok ix /\
  forall grow blot fuel, (List.length docs < fuel)%nat ->
  exists ds, query_get grow ix fuel blot None = Ok ds /\
    docs_keys ds = map (place_of docs) (carriers (word_hash u) k m n 0 wss (blot mod (N.of_nat n * 65536))).
Proof.
  intros u c k m n F V sorted docs wss o os fs dirs Hs Fit Ww Lo Cs Ed.
  destruct (proj1 (created_closed u c k m n F docs o os fs true Lo Cs) eq_refl) as (dk & Hi & ->).
  rewrite (proj1 (open_files_of c k m n F V sorted dirs dk Ed (history_cfg u c _ _ Hi))).
  rewrite <- (all_docs_one docs) in Fit, Ww.
  destruct (query_exact u c k m n sorted F Hs [docs] dk wss Hi Fit Ww) as (ix & Ex & Q). rewrite all_docs_one in Q. exists ix. split; [exact Ex|exact Q].
Qed.
(** ... and of one that was appended to. *)
Theorem C82_nil_appended : forall u c k m n, cfg_full c k m n -> cfg_values c ->
  forall sorted ss dk docs wss o os fs dirs, sorts sorted -> history u c ss dk -> docs_fit (all_docs ss ++ docs) ->
  words_of (word_char u) (all_docs ss ++ docs) wss -> List.length os = n ->
  closed_session u (open_indexer dk) (files_of dk) docs o os fs true -> dirs (cf_root c) = fs ->
  exists ix, open_files sorted dirs (cf_root c) = Ok ix /\
  forall grow blot fuel, (List.length (all_docs ss ++ docs) < fuel)%nat ->
  exists ds, query_get grow ix fuel blot None = Ok ds /\
    docs_keys ds = map (place_of (all_docs ss ++ docs)) (carriers (word_hash u) k m n 0 wss (blot mod (N.of_nat n * 65536))).
Proof.
  intros u c k m n F V sorted ss dk docs wss o os fs dirs Hs Hi Fit Ww Lo Cs Ed.
  destruct (proj1 (appended_closed u c k m n F ss dk docs o os fs true Hi (fit_app _ _ Fit) Lo Cs) eq_refl) as (dk' & Hi' & ->).
  rewrite (proj1 (open_files_of c k m n F V sorted dirs dk' Ed (history_cfg u c _ _ Hi'))).
  rewrite <- (all_docs_cons docs ss) in Fit, Ww |- *.
  exact (query_exact u c k m n sorted F Hs (docs :: ss) dk' wss Hi' Fit Ww).
Qed.
Print Assumptions C82_nil_created.
Print Assumptions C82_nil_appended.

(** C83 fails: whatever is in the index and whatever is appended, if the first write to the
    file names fails (the disk being full, say), Close has already truncated them, and the
    index cannot be opened any more. *)
Theorem C83_close_destroys_refuted : forall u c k m n, cfg_full c k m n -> cfg_values c -> (0 < cf_numshatters c)%Z ->
  forall ss dk docs, history u c ss dk -> docs_fit (all_docs ss ++ docs) ->
  exists o os fs, closed_session u (open_indexer dk) (files_of dk) docs o os fs false /\
    forall sorted dirs, dirs (cf_root c) = fs ->
    (exists e, open_files sorted dirs (cf_root c) = Err e) /\ (exists e, open_indexer_files dirs (cf_root c) = Err e).
Proof.
  intros u c k m n F V Hs ss dk docs Hi Fit. destruct (close_destroys u c k m n F V ss dk docs Hi Fit Hs) as (fs & C & X). eexists _, _, fs. split; [exact C|exact X].
Qed.
(** What holds after a failed Close: a new index cannot be opened, or everything is in it; *)
Theorem C83_created_partial : forall u c k m n, cfg_full c k m n -> cfg_values c ->
  forall sorted docs wss o os fs dirs, sorts sorted -> docs_fit docs -> words_of (word_char u) docs wss -> List.length os = n ->
  closed_session u (create_indexer c) (MkFiles None None None (repeat new_shard_files n)) docs o os fs false -> dirs (cf_root c) = fs ->
  (exists e, open_files sorted dirs (cf_root c) = Err e) \/
  exists ix, open_files sorted dirs (cf_root c) = Ok ix /\
  forall grow blot fuel, (List.length docs < fuel)%nat ->
  exists ds, query_get grow ix fuel blot None = Ok ds /\
    docs_keys ds = map (place_of docs) (carriers (word_hash u) k m n 0 wss (blot mod (N.of_nat n * 65536))).
Proof.
  intros u c k m n F V sorted docs wss o os fs dirs Hs Fit Ww Lo Cs Ed.
  pose proof (proj2 (created_closed u c k m n F docs o os fs false Lo Cs) eq_refl) as St.
  destruct (create_stopped_open u c k m n F V sorted docs fs dirs Fit St Ed) as [[X _]|(dk & H & _ & E & _)]; [left; exact X|].
  right. rewrite E. rewrite <- (all_docs_one docs) in Fit, Ww.
  destruct (query_exact u c k m n sorted F Hs [docs] dk wss (history_create u c docs dk H) Fit Ww) as (ix & Ex & Q). rewrite all_docs_one in Q. exists ix. split; [exact Ex|exact Q].
Qed.
(** one that was appended to cannot be opened, or the earlier documents are all in it.
    Missing: queries with more room than the blot had earlier documents. *)
Theorem C83_appended_partial : forall u c k m n, cfg_full c k m n -> cfg_values c ->
  forall sorted ss dk wss docs o os fs dirs, sorts sorted -> history u c ss dk -> docs_fit (all_docs ss ++ docs) ->
  words_of (word_char u) (all_docs ss) wss -> List.length os = n ->
  closed_session u (open_indexer dk) (files_of dk) docs o os fs false -> dirs (cf_root c) = fs ->
  (exists e, open_files sorted dirs (cf_root c) = Err e) \/
  exists ix, open_files sorted dirs (cf_root c) = Ok ix /\
  forall grow blot fuel back,
    let ids := carriers (word_hash u) k m n 0 wss (blot mod (N.of_nat n * 65536)) in
    (List.length back <= List.length ids)%nat -> (List.length (all_docs ss) < fuel)%nat ->
    exists ds, query_get grow ix fuel blot (Some (0%nat, back)) = Ok ds /\
      docs_keys ds = map (place_of (all_docs ss)) (firstn (List.length back) ids).
Proof.
  intros u c k m n F V sorted ss dk wss docs o os fs dirs Hs Hi Fit Ww Lo Cs Ed.
  pose proof (proj2 (appended_closed u c k m n F ss dk docs o os fs false Hi (fit_app _ _ Fit) Lo Cs) eq_refl) as St.
  exact (append_stopped_any u c k m n F V sorted ss dk wss docs fs dirs Hs Hi Fit Ww St Ed).
Qed.
Print Assumptions C83_close_destroys_refuted.
Print Assumptions C83_created_partial.
Print Assumptions C83_appended_partial.

(** Whatever the outcomes of the calls, there is a session whose Close gets them. *)
Theorem C82_C83_reached : forall u c k m n, cfg_full c k m n -> (0 < cf_numshatters c)%Z ->
  (forall docs o os, docs_fit docs -> exists fs ok, closed_session u (create_indexer c) (MkFiles None None None (repeat new_shard_files n)) docs o os fs ok) /\
  (forall ss dk docs o os, history u c ss dk -> docs_fit (all_docs ss ++ docs) -> exists fs ok, closed_session u (open_indexer dk) (files_of dk) docs o os fs ok).
Proof. intros u c k m n F Hs. split; [exact (created_closes u c k m n F Hs)|exact (appended_closes u c k m n F Hs)]. Qed.
Print Assumptions C82_C83_reached.

(** The hypotheses are met by the default configuration. One session, its calls succeeding
    or not: Close returns nil when all succeed, and an error when one does not. *)
Example C82_C83_example : cfg_full wit_config 1 10 2 /\ cfg_values wit_config /\ (0 < cf_numshatters wit_config)%Z /\
  docs_fit wit_docs /\ docs_fit (all_docs [wit_docs] ++ wit_docs) /\
  (forall xs fn dm, exists fs o' os', indexer_close_c wit_config xs (MkFiles None None None (repeat new_shard_files (List.length xs))) fn dm [Some 0%nat] (repeat [] (List.length xs)) = (fs, o', os', false)).
Proof.
  split; [exact wit_full|]. split.
  { constructor; try (split; [vm_compute; discriminate|reflexivity]); apply Utf8P.utf8_valid_spec; vm_compute; reflexivity. }
  split; [reflexivity|]. split; [exact wit_fit|]. split.
  { destruct wit_fit as [A B C]. constructor; [|reflexivity|reflexivity]. rewrite all_docs_one. apply Forall_app. split; exact A. }
  intros xs fn dm. eexists _, _, _. reflexivity.
Qed.
