(** C22-C25: the goroutines of an indexing session. The states and steps are those of
    Model/Conc: one caller of Add, then Close, the workers, their sender goroutines and the
    shard servers, in any interleaving. *)
From Coq Require Import String.
From Verif Require Import Model.Base Model.Utf8 Model.Token Model.Blotter Model.Post Model.Shatter Model.Shard Model.Conc Model.Config Model.Run.
From Verif Require Import Spec.Text Spec.Fingerprint Spec.Configs Spec.Posting Spec.Str.
From Verif Require Import Proof.Tactics Proof.TokenP Proof.BlotterP Proof.ShatterP Proof.ConcRun.
Local Open Scope N_scope.
Local Open Scope list_scope.

(** With servers that write down what reaches them: what has reached shard j is, in every
    reachable state, a prefix of the posts of the documents in order ([posts_for]), and all
    of it once Close closes the channels. *)
Theorem C22_posts_in_order : forall u c k m n ws last docs wss,
  cfg_ok c k m n -> N.of_nat n < 2 ^ 32 -> start_workers c = Ok ws ->
  last + nlen docs < 2 ^ 32 - 1 -> Forall2 (fun d ws => doc_words (word_char u) (snd d) ws) docs wss ->
  forall st, steps (shatter_work u (Z.to_nat (cf_numshards c)) (cf_seqlen c)) log_post (init [docs] last ws (repeat [] n)) st ->
    List.length (s_servers st) = n /\
    forall j v, nth_error (s_servers st) j = Some v ->
    exists rest, posts_for (word_hash u) k m n j last wss = v_shard v ++ rest /\
      (forall j0, s_main st = MChan j0 -> rest = []).
Proof. exact posts_in_order. Qed.
Print Assumptions C22_posts_in_order.

(** [MChan]: all workers have been shut down; from here on Close only closes channels and
    writes files. *)
Theorem C23_schedule_does_not_matter : forall u c k m n ws last docs shards,
  cfg_ok c k m n -> N.of_nat n < 2 ^ 32 -> start_workers c = Ok ws ->
  last + nlen docs < 2 ^ 32 - 1 -> List.length shards = n ->
  exists b b' bs, blotter_from_config (cf_blot c) = Ok b /\
  worker_run u n (cf_seqlen c) b (numbered last docs) = Ok (b', bs) /\
  forall st j0, session_steps u c (session_start last ws shards docs) st -> s_main st = MChan j0 ->
    Forall client_done (s_clients st) /\
    map v_shard (s_servers st) =
      map (fun p => fold_left serve_batch (map (fun o => nth (fst p) o []) bs) (snd p)) (combine (seq 0 n) shards).
Proof. exact schedule_free. Qed.
Print Assumptions C23_schedule_does_not_matter.

Theorem C24_no_deadlock : forall u c k m n ws last docs shards,
  cfg_ok c k m n -> N.of_nat n < 2 ^ 32 -> start_workers c = Ok ws -> (0 < cf_numshatters c)%Z ->
  last + nlen docs < 2 ^ 32 - 1 -> List.length shards = n ->
  exists bound, forall len st,
    stepsn (shatter_work u (Z.to_nat (cf_numshards c)) (cf_seqlen c)) serve_post len (session_start last ws shards docs) st ->
    (len <= bound)%nat /\ (final st \/ exists st', session_step u c st st') /\ ~ sends_on_closed st.
Proof. exact no_deadlock. Qed.
(** In particular there are complete executions. *)
Theorem C24_completes : forall u c k m n ws last docs shards,
  cfg_ok c k m n -> N.of_nat n < 2 ^ 32 -> start_workers c = Ok ws -> (0 < cf_numshatters c)%Z ->
  last + nlen docs < 2 ^ 32 - 1 -> List.length shards = n ->
  exists st, session_steps u c (session_start last ws shards docs) st /\ final st.
Proof. exact completes. Qed.
Print Assumptions C24_no_deadlock.
Print Assumptions C24_completes.

(** C25 is false: with two callers, whatever the configuration and the documents, as soon as
    one of them has as many documents as there are workers. *)
Theorem C25_concurrent_add_refuted : forall u c k m n ws last a ds shards,
  cfg_ok c k m n -> N.of_nat n < 2 ^ 32 -> start_workers c = Ok ws ->
  List.length ds = Z.to_nat (cf_numshatters c) -> last + 2 + nlen ds < 2 ^ 32 - 1 ->
  exists st, session_steps u c (init [[a]; ds] last ws shards) st /\ ~ final st /\ forall st', ~ session_step u c st st'.
Proof. exact two_callers_stuck. Qed.
Print Assumptions C25_concurrent_add_refuted.

(** The hypotheses are met by the default configuration. *)
Example C22_C25_example : exists c ws, default_config (bs "/") (bs "/x") = Ok c /\ cfg_ok c 1 10 2 /\ start_workers c = Ok ws /\
  (0 < cf_numshatters c)%Z /\ List.length ws = 2%nat /\
  (forall u (docs : list req), nlen docs < 1000000 ->
     exists st, session_steps u c (session_start 0 ws [shard_create; shard_create] docs) st /\ final st) /\
  (forall u, exists st, session_steps u c (init [[(0, bs "a")]; [(0, bs "b"); (0, bs "c")]] 0 ws [shard_create; shard_create]) st /\
     ~ final st /\ forall st', ~ session_step u c st st').
Proof.
  eexists _, _. split; [vm_compute; reflexivity|]. split; [constructor; vm_compute; try reflexivity; lia|].
  split; [vm_compute; reflexivity|]. split; [reflexivity|]. split; [reflexivity|].
  split.
  - intros u docs L. eapply (completes u _ 1 10 2); try reflexivity; [|lia]. constructor; vm_compute; try reflexivity; lia.
  - intros u. eapply (two_callers_stuck u _ 1 10 2); try reflexivity. constructor; vm_compute; try reflexivity; lia.
Qed.
