(** C56, C57: moving, copying and removing indexes. *)
From Coq Require Import String.
From Verif Require Import Model.Base Model.Path Model.Utf8 Model.Token Model.Blotter Model.Shatter Model.Shard Model.Dmd Model.Fnames Model.Conc Model.Config Model.Json Model.Run Model.Index Model.Query Model.Session Model.Crash Model.Root Model.Lock.
From Verif Require Import Spec.Text Spec.Fingerprint Spec.Configs Spec.Paths Spec.Reading Spec.Querying Spec.History Spec.Locking Spec.Str.
From Verif Require Import Proof.Tactics Proof.PathP Proof.TokenP Proof.BlotterP Proof.QueryP Proof.QueryW Proof.SessionP Proof.SessionP2 Proof.CrashP Proof.RootP.
Local Open Scope N_scope.
Local Open Scope list_scope.

(** C56: [dirs] gives the files of every directory. An index made in [cf_root c] that now is
    in another directory, with nothing left in the old one, cannot be opened, neither for
    reading nor for appending; whatever was done to it before. *)
Theorem C56_moved_refuted : forall u c k m n, cfg_full c k m n -> cfg_values c ->
  forall ss dk dirs cwd root, history u c ss dk -> dirs (path_abs cwd root) = files_of dk -> dirs (cf_root c) = no_files ->
  forall sorted, open_index_at sorted dirs cwd root = Err EOther /\ open_indexer_at dirs cwd root = Err EOther.
Proof. intros u c k m n F V. exact (moved_fails u c k m n F V). Qed.
(** If the directory was copied instead, then opening the copy opens the original: the
    answers are those of the sessions [ss'] of the original, not of the copy's [ss] ... *)
Theorem C56_copy_answers_refuted : forall u c k m n, cfg_full c k m n -> cfg_values c ->
  forall ss dk ss' dk' wss dirs cwd root sorted, sorts sorted -> history u c ss dk -> history u c ss' dk' ->
  docs_fit (all_docs ss') -> words_of (word_char u) (all_docs ss') wss ->
  dirs (path_abs cwd root) = files_of dk -> dirs (cf_root c) = files_of dk' ->
  exists ix, open_index_at sorted dirs cwd root = Ok ix /\
  forall grow blot fuel, (List.length (all_docs ss') < fuel)%nat ->
  exists ds, query_get grow ix fuel blot None = Ok ds /\
    docs_keys ds = map (place_of (all_docs ss')) (carriers (word_hash u) k m n 0 wss (blot mod (N.of_nat n * 65536))).
Proof.
  intros u c k m n F V ss dk ss' dk' wss dirs cwd root sorted Hs H H' Fit Ww E E'.
  destruct (copy_is_original u c k m n F V ss dk ss' dk' dirs cwd root H H' E E' sorted) as [-> _].
  exact (query_exact u c k m n sorted F Hs ss' dk' wss H' Fit Ww).
Qed.
(** ... and what is appended to the copy is appended to the original. *)
Theorem C56_copy_appends_refuted : forall u c k m n, cfg_full c k m n -> cfg_values c ->
  forall ss dk ss' dk' dirs cwd root docs dk'', history u c ss dk -> history u c ss' dk' ->
  dirs (path_abs cwd root) = files_of dk -> dirs (cf_root c) = files_of dk' ->
  session u (open_indexer_at dirs cwd root) docs dk'' -> history u c (docs :: ss') dk''.
Proof.
  intros u c k m n F V ss dk ss' dk' dirs cwd root docs dk'' H H' E E' S.
  destruct (copy_is_original u c k m n F V ss dk ss' dk' dirs cwd root H H' E E' (fun _ => [])) as [_ X]. rewrite X in S.
  eapply history_append; eauto.
Qed.
(** What holds: opened under any name of the directory it was made in, the index opened is
    the one there, whatever other directories hold. *)
Theorem C56_in_place_partial : forall u c k m n, cfg_full c k m n -> cfg_values c ->
  forall ss dk dirs cwd root, history u c ss dk -> cf_root c = path_abs cwd root -> dirs (path_abs cwd root) = files_of dk ->
  forall sorted, open_index_at sorted dirs cwd root = open_index sorted dk /\ open_indexer_at dirs cwd root = open_indexer dk.
Proof. intros u c k m n F V. exact (in_place u c k m n F V). Qed.
Print Assumptions C56_moved_refuted.
Print Assumptions C56_copy_answers_refuted.
Print Assumptions C56_copy_appends_refuted.
Print Assumptions C56_in_place_partial.

(** C57: removing an index where it was made removes it and all below it, and nothing else. *)
Theorem C57_removes_exactly_partial : forall u c k m n, cfg_full c k m n -> cfg_values c ->
  forall ss dk dirs cwd root sorted ix, rooted cwd -> history u c ss dk -> cf_root c = path_abs cwd root ->
  dirs (path_abs cwd root) = files_of dk -> open_index_at sorted dirs cwd root = Ok ix ->
  (forall e, Forall plain_name e -> remove_index ix dirs (show_abs (spec_abs cwd root ++ e)) = no_files) /\
  (forall ds, Forall plain_name ds -> (forall e, ds <> spec_abs cwd root ++ e) -> remove_index ix dirs (show_abs ds) = dirs (show_abs ds)).
Proof. intros u c k m n F V. exact (remove_in_place u c k m n F V). Qed.
Theorem C57_indexer_removes_exactly_partial : forall u c k m n, cfg_full c k m n -> cfg_values c ->
  forall ss dk dirs cwd root x ws, rooted cwd -> history u c ss dk -> cf_root c = path_abs cwd root ->
  dirs (path_abs cwd root) = files_of dk -> open_indexer_at dirs cwd root = Ok (x, ws) ->
  (forall e, Forall plain_name e -> remove_indexer x dirs (show_abs (spec_abs cwd root ++ e)) = no_files) /\
  (forall ds, Forall plain_name ds -> (forall e, ds <> spec_abs cwd root ++ e) -> remove_indexer x dirs (show_abs ds) = dirs (show_abs ds)).
Proof. intros u c k m n F V. exact (remove_indexer_in_place u c k m n F V). Qed.
(** But removing a copy (in [root], not inside the original's directory [root0]) removes the
    original and leaves the copy. *)
Theorem C57_removes_original_refuted : forall u c k m n, cfg_full c k m n -> cfg_values c ->
  forall ss dk ss' dk' dirs cwd root cwd0 root0 sorted ix, rooted cwd -> rooted cwd0 -> history u c ss dk -> history u c ss' dk' ->
  cf_root c = path_abs cwd0 root0 -> (forall e, spec_abs cwd root <> spec_abs cwd0 root0 ++ e) ->
  dirs (path_abs cwd root) = files_of dk -> dirs (path_abs cwd0 root0) = files_of dk' -> open_index_at sorted dirs cwd root = Ok ix ->
  remove_index ix dirs (path_abs cwd0 root0) = no_files /\ remove_index ix dirs (path_abs cwd root) = files_of dk.
Proof. intros u c k m n F V. exact (remove_copy u c k m n F V). Qed.
(** And the index is removed after its lock has been given back: a user of any kind [k2] can
    have opened it by then. ([prog k1 ++ [OUse]]: the last operation is the removal.) *)
Theorem C57_removed_while_open_refuted : forall f k1 k2, exists us w, lreach (any_users [(f, prog k1 ++ [OUse]); (f, prog k2)]) us /\
  nth_error us 0 = Some w /\ us_todo w = [OUse] /\ us_held w = None /\ in_use us 1.
Proof. exact removed_while_open. Qed.
(** The lock file is not in the directory of the index, so it stays. *)
Theorem C57_lock_file_stays_refuted : forall cwd root e, rooted cwd -> spec_abs cwd root <> [] ->
  file_at cwd (create_lock cwd root) <> file_at cwd root ++ e.
Proof. exact lock_outside. Qed.
Print Assumptions C57_removes_exactly_partial.
Print Assumptions C57_indexer_removes_exactly_partial.
Print Assumptions C57_removes_original_refuted.
Print Assumptions C57_removed_while_open_refuted.
Print Assumptions C57_lock_file_stays_refuted.

(** The hypotheses are met: an index made as "x" in "/", and directories that hold one
    history of it at "/x" and another at "/y". *)
Example C56_C57_example : forall u, exists dk dk' dirs,
  cfg_full wit_config 1 10 2 /\ cfg_values wit_config /\ history u wit_config [wit_docs] dk /\ history u wit_config [[]; wit_docs] dk' /\
  docs_fit (all_docs [[]; wit_docs]) /\ rooted (bs "/") /\ cf_root wit_config = path_abs (bs "/") (bs "x") /\
  (forall e, spec_abs (bs "/") (bs "y") <> spec_abs (bs "/") (bs "x") ++ e) /\
  dirs (path_abs (bs "/") (bs "y")) = files_of dk /\ dirs (path_abs (bs "/") (bs "x")) = files_of dk' /\
  dirs (bs "/z") = no_files /\ plain_name (bs "sub").
Proof.
  intros u. assert (Fit : docs_fit (all_docs [[]; wit_docs])) by (destruct wit_fit as [A B C]; constructor; [rewrite <- (all_docs_one wit_docs) in A; exact A|reflexivity|reflexivity]).
  assert (Fit1 : docs_fit (all_docs [wit_docs])) by (rewrite all_docs_one; exact wit_fit).
  destruct wit_full as [A B C] eqn:Ef.
  destruct (history_exists u wit_config 1 10 2 A B C [wit_docs] ltac:(discriminate) eq_refl Fit1) as [dk H].
  destruct (history_exists u wit_config 1 10 2 A B C [[]; wit_docs] ltac:(discriminate) eq_refl Fit) as [dk' H'].
  exists dk, dk', (fun p => if eq_bytes p (bs "/y") then files_of dk else if eq_bytes p (bs "/x") then files_of dk' else no_files).
  split; [exact wit_full|]. split.
  { constructor; try (split; [vm_compute; discriminate|reflexivity]); apply Utf8P.utf8_valid_spec; vm_compute; reflexivity. }
  split; [exact H|]. split; [exact H'|]. split; [exact Fit|]. split; [exists []; reflexivity|]. split; [reflexivity|].
  split; [intros e; vm_compute; discriminate|]. split; [reflexivity|]. split; [reflexivity|]. split; [reflexivity|].
  split; [discriminate|]. split; [|split; discriminate]. vm_compute. intuition discriminate.
Qed.
