(** C20 for whole sessions. *)
From Coq Require Import Sorted.
From Verif Require Import Model.Base Model.Utf8 Model.Token Model.Blotter Model.Shatter Model.Conc Model.Config Model.Run Model.Index Model.Query Model.Session Model.Crash.
From Verif Require Import Spec.Text Spec.Fingerprint Spec.Configs Spec.Paths Spec.Reading Spec.Querying Spec.History Spec.Live Spec.Str.
From Verif Require Import Proof.SessionP Proof.QueryW Proof.FiledP.
Local Open Scope N_scope.

(** After any sessions, in all schedules of their workers: the documents that a query for
    [q] returns are, in the order in which they were added, those for which BlotDoc reports
    a blot equal to [q] modulo the number of blots. [place_of]: path, start and end. *)
Theorem C20_sessions : forall u c k m n sorted, cfg_full c k m n -> sorts sorted ->
  forall ss dk, history u c ss dk -> docs_fit (all_docs ss) ->
  exists ix, open_index sorted dk = Ok ix /\ forall grow q fuel, (length (all_docs ss) < fuel)%nat ->
  exists ds ids, query_get grow ix fuel q None = Ok ds /\ docs_keys ds = map (place_of (all_docs ss)) ids /\ StronglySorted N.lt ids /\
    forall d, In d ids <-> 0 < d /\ exists cwd x blots b, doc_at (all_docs ss) d (cwd, x) /\ blot_doc u c [] x = Ok blots /\ In b blots /\
      b mod (N.of_nat n * 65536) = q mod (N.of_nat n * 65536).
Proof. exact filed. Qed.
Print Assumptions C20_sessions.

(** BlotDoc reports one blot for the first document of the example in Props/Query. *)
Example C20_sessions_example u : (exists dk, history u wit_config [wit_docs] dk) /\ docs_fit (all_docs [wit_docs]) /\
  exists cwd x b, doc_at wit_docs 1 (cwd, x) /\ blot_doc u wit_config [] x = Ok [b] /\ b mod (N.of_nat 2 * 65536) = wit_blot1.
Proof.
  split; [|split; [exact wit_fit|]].
  - destruct wit_full as [O Hn Hfl]. destruct (history_exists u wit_config 1 10 2 O Hn Hfl [wit_docs]) as [dk Hi]; [discriminate|reflexivity|exact wit_fit|].
    exists dk. exact Hi.
  - pose proof (wit_words u) as W. remember wit_docs as docs eqn:Ed. unfold wit_wss in W. inversion W as [|[cwd x] ? r ? A _ E]. exists cwd, x. eexists. split; [reflexivity|].
    rewrite (IndexP.blot_doc_spec u wit_config 1 10 2 [] x wit_words1 (cu_ok _ _ _ _ wit_full) A). split; vm_compute; reflexivity.
Qed.
