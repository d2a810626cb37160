(** C115: what the files of an index depend on. *)
From Coq Require Import String.
From Verif Require Import Model.Base Model.Utf8 Model.Token Model.Blotter Model.Shard Model.Conc Model.Config Model.Index Model.Query Model.Session Model.Json.
From Verif Require Import Spec.Text Spec.Fingerprint Spec.Configs Spec.Paths Spec.History Spec.Sessions Spec.Str.
From Verif Require Import Proof.Tactics Proof.PosterP Proof.TokenP Proof.BlotterP Proof.QueryW Proof.SessionP Proof.SessionP2 Proof.SessionsP.
From Coq Require Import Lia.
Local Open Scope N_scope.
Local Open Scope list_scope.

(** C115: "Opening an index for appending and closing it again changes nothing." *)
Theorem C115_nothing_added : forall u c k m n, cfg_full c k m n ->
  forall ss dk dk', history u c ss dk -> docs_fit (all_docs ss) -> session u (open_indexer dk) [] dk' -> dk' = dk.
Proof. intros u c k m n F ss dk dk' Hi Fit S. exact (idle_session u k m n (cu_n _ _ _ _ F) c ss dk dk' F Hi Fit S). Qed.
Print Assumptions C115_nothing_added.

(** Whatever the schedules were, and whether or not some sessions added nothing, the files are
    the same byte for byte; the configurations may differ in all but the blotter and the number
    of shards. *)
Theorem C115_files : forall u c c' k m n, cfg_full c k m n -> cfg_full c' k m n ->
  forall ss ss' dk dk', history u c ss dk -> history u c' ss' dk' -> docs_fit (all_docs ss) -> busy_sessions ss = busy_sessions ss' ->
    k_dmd dk = k_dmd dk' /\ k_fnames dk = k_fnames dk' /\ k_shards dk = k_shards dk'.
Proof. intros u c c' k m n F F' ss ss' dk dk' Hi Hi' Fit E. exact (same_files u k m n (cu_n _ _ _ _ F) c c' ss ss' dk dk' F F' Hi Hi' Fit E). Qed.
Print Assumptions C115_files.

(** The records of the documents and of the paths do not even depend on how the documents were
    divided into sessions. *)
Theorem C115_records : forall u c c' k m n, cfg_full c k m n -> cfg_full c' k m n ->
  forall ss ss' dk dk', history u c ss dk -> history u c' ss' dk' -> docs_fit (all_docs ss) -> all_docs ss = all_docs ss' ->
    k_dmd dk = k_dmd dk' /\ k_fnames dk = k_fnames dk'.
Proof. intros u c c' k m n F F' ss ss' dk dk' Hi Hi' Fit E. exact (same_records u k m n (cu_n _ _ _ _ F) c c' ss ss' dk dk' F F' Hi Hi' Fit E). Qed.
Print Assumptions C115_records.

(** Five documents at once; or an empty index first, then three, nothing, and two. *)
Example C115_example : forall u, exists dk dk' dk2,
  history u wit_config [wit_docs] dk /\ session u (open_indexer dk) [] dk' /\
  history u wit_config [[]; skipn 3 wit_docs; []; firstn 3 wit_docs; []] dk2 /\
  busy_sessions [[]; skipn 3 wit_docs; []; firstn 3 wit_docs; []] = [skipn 3 wit_docs; firstn 3 wit_docs] /\
  all_docs [[]; skipn 3 wit_docs; []; firstn 3 wit_docs; []] = all_docs [wit_docs] /\ docs_fit (all_docs [wit_docs]).
Proof.
  intros u. assert (E : all_docs [wit_docs] = wit_docs) by reflexivity.
  assert (X : forall ss, ss <> [] -> docs_fit (all_docs ss) -> exists dk, history u wit_config ss dk).
  { intros ss N Fit. apply (history_exists u wit_config 1 10 2 (cu_ok _ _ _ _ wit_full) (cu_n _ _ _ _ wit_full) (cu_flush _ _ _ _ wit_full)); [exact N|reflexivity|exact Fit]. }
  destruct (X [[]; wit_docs]) as [dk' H']; [discriminate|exact wit_fit|].
  destruct (X [[]; skipn 3 wit_docs; []; firstn 3 wit_docs; []]) as [dk2 H2]; [discriminate|exact wit_fit|].
  inversion H' as [|ss dk docs dk1 H S]; subst. exists dk, dk', dk2. split; [exact H|]. split; [exact S|]. split; [exact H2|]. repeat split; exact wit_fit || reflexivity || apply wit_fit.
Qed.

(** Close also writes the configuration, over the file that is there. *)
Theorem C115_configuration : forall c, config_write (Some (config_write None c)) c = config_write None c.
Proof.
  intros c. unfold config_write. generalize (marshal c). clear. intros d.
  assert (E : pwrite (pwrite [] 0 d) (List.length d) [10] = d ++ [10]).
  { change (pwrite [] 0 d) with (pwrite [] (List.length (@nil N)) d). rewrite pwrite_end. cbn [app]. apply pwrite_end. }
  rewrite E, (pwrite_replace d [10] d eq_refl). pose proof (pwrite_app_r d [10] 0 [10]) as Q. rewrite Nat.add_0_r in Q. exact Q.
Qed.
Print Assumptions C115_configuration.
