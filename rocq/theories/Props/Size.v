(** C114: the size of an index. *)
From Coq Require Import String.
From Verif Require Import Model.Base Model.Utf8 Model.Token Model.Blotter Model.Shard Model.Conc Model.Config Model.Index Model.Query Model.Session.
From Verif Require Import Spec.Text Spec.Fingerprint Spec.Configs Spec.Paths Spec.History Spec.Size Spec.Str.
From Verif Require Import Proof.Tactics Proof.TokenP Proof.BlotterP Proof.QueryW Proof.SessionP Proof.SessionP2 Proof.SizeP.
From Coq Require Import Lia.
Local Open Scope N_scope.
Local Open Scope list_scope.

(** C114: "The files of an index take space in proportion to what is in it."

    Whatever the sessions, their order and the schedules of their goroutines: 12 bytes for each
    document and one more record; the names of all files and directories on the way to them,
    each once, with at most 10 bytes more for each; a table of 65536 entries of 6 to 19 bytes for
    each shard; and 1 to 15 bytes of posting files for each different pair of a document and a
    blot (modulo the number of slots). *)
Theorem C114_size : forall u c k m n, cfg_full c k m n ->
  forall ss dk wss, history u c ss dk -> docs_fit (all_docs ss) -> words_of (word_char u) (all_docs ss) wss ->
    (exists f, k_dmd dk = Some f /\ nlen f = 12 * (1 + nlen (all_docs ss))) /\
    (exists f, k_fnames dk = Some f /\ names_size (all_docs ss) + 2 * nlen (tree_nodes (all_docs ss)) + 1 <= nlen f /\
       nlen f <= names_size (all_docs ss) + 10 * nlen (tree_nodes (all_docs ss)) + 5) /\
    List.length (k_shards dk) = n /\
    (forall iix pos, In (iix, pos) (k_shards dk) -> 65536 * 6 <= nlen iix <= 65536 * 19) /\
    pairs (word_hash u) k m n wss <= total_size (map snd (k_shards dk)) <= 15 * pairs (word_hash u) k m n wss.
Proof. intros u c k m n F. exact (index_size u c k m n F). Qed.
Print Assumptions C114_size.

(** So the posting files are at most 7.5 times as long as the text that was added. *)
Theorem C114_text : forall u c k m n, cfg_full c k m n ->
  forall ss dk, history u c ss dk -> docs_fit (all_docs ss) ->
    2 * total_size (map snd (k_shards dk)) <= 15 * text_size (all_docs ss).
Proof.
  intros u c k m n F ss dk Hi Fit. destruct (words_total u (all_docs ss)) as [wss W].
  destruct (index_size u c k m n F ss dk wss Hi Fit W) as (_ & _ & _ & _ & _ & U).
  pose proof (pairs_text (word_hash u) k m n _ _ _ W) as T. lia.
Qed.
Print Assumptions C114_text.

(** Five documents with one blot each. *)
Example C114_example : forall u, cfg_full wit_config 1 10 2 /\ docs_fit wit_docs /\ words_of (word_char u) wit_docs wit_wss /\
  (exists dk, history u wit_config [wit_docs] dk /\ all_docs [wit_docs] = wit_docs) /\
  pairs (word_hash u) 1 10 2 wit_wss = 5 /\ nlen (tree_nodes wit_docs) = 6 /\ names_size wit_docs = 5 /\ text_size wit_docs = 110.
Proof.
  intros u. split; [exact wit_full|]. split; [exact wit_fit|]. split; [apply wit_words|]. split; [|repeat split; vm_compute; reflexivity].
  assert (E : all_docs [wit_docs] = wit_docs) by reflexivity.
  destruct (history_exists u wit_config 1 10 2 (cu_ok _ _ _ _ wit_full) (cu_n _ _ _ _ wit_full) (cu_flush _ _ _ _ wit_full) [wit_docs]) as [dk Hd]; [discriminate|reflexivity|rewrite E; exact wit_fit|eauto].
Qed.
