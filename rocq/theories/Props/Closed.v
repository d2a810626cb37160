(** C81: using an Indexer after Close. *)
From Coq Require Import String.
From Verif Require Import Model.Base Model.Utf8 Model.Token Model.Blotter Model.Post Model.Shatter Model.Shard Model.Conc Model.Config Model.Run Model.Index.
From Verif Require Import Spec.Configs Spec.Str Proof.Tactics Proof.ConcRun Proof.ClosedP Proof.QueryW.
Local Open Scope N_scope.
Local Open Scope list_scope.

(** C81 fails. [final st]: Close has returned. Add gives the document an id and then waits
    for ever to send it: it never returns, with or without an error. *)
Theorem C81_add_refuted : forall u c st d, final st ->
  (forall st', session_steps u c (calling_add d st) st' -> ~ Forall client_done (s_clients st')) /\
  exists st', session_steps u c (calling_add d st) st' /\ forall st'', ~ session_step u c st' st''.
Proof.
  intros u c st d Fi. destruct (add_stuck (shatter_work u (Z.to_nat (cf_numshards c)) (cf_seqlen c)) serve_post d st Fi) as [Stk X]. split.
  - intros st' H. destruct (X st' H) as [->| ->]; cbn [calling_add waiting_add s_clients]; intros Y; inversion Y as [|? ? [Y1 Y2] _]; discriminate.
  - exists (waiting_add d st). split; [|exact Stk]. eapply steps_step; [apply steps_refl|].
    exact (StepId _ _ (calling_add d st) 0 (MkClient None [d]) d [] eq_refl eq_refl eq_refl).
Qed.
(** A second Close waits for ever to send the first shutdown request; it comes to none of
    the steps after that. *)
Theorem C81_close_refuted : forall u c st, final st -> s_workers st <> [] ->
  (forall st' j, session_steps u c (set_main MRun st) st' -> s_main st' <> MChan j) /\
  exists st', session_steps u c (set_main MRun st) st' /\ forall st'', ~ session_step u c st' st''.
Proof.
  intros u c st Fi Nw. destruct (close_stuck (shatter_work u (Z.to_nat (cf_numshards c)) (cf_seqlen c)) serve_post st Fi Nw) as [Stk X]. split.
  - intros st' j H. destruct (X st' H) as [->| ->]; cbn [set_main s_main]; discriminate.
  - exists (set_main (MClose (List.length (s_workers st))) st). split; [|exact Stk]. eapply steps_step; [apply steps_refl|].
    apply (StepClose _ _ (set_main MRun st)); [reflexivity|]. exact (proj1 Fi).
Qed.
(** Every session gets there. *)
Theorem C81_reached : forall u c k m n ws last docs shards,
  cfg_ok c k m n -> N.of_nat n < 2 ^ 32 -> start_workers c = Ok ws -> (0 < cf_numshatters c)%Z ->
  last + nlen docs < 2 ^ 32 - 1 -> List.length shards = n ->
  exists st, session_steps u c (session_start last ws shards docs) st /\ final st /\ s_workers st <> [].
Proof.
  intros u c k m n ws last docs shards O Hn Hw Hs Hl Hsh. destruct (completes u c k m n ws last docs shards O Hn Hw Hs Hl Hsh) as (st & St & Fi).
  exists st. split; [exact St|]. split; [exact Fi|]. intros E. pose proof (steps_workers _ _ _ _ St) as L. rewrite E in L.
  unfold session_start, init in L. cbn [s_workers List.length] in L. rewrite map_length in L. unfold start_workers in Hw.
  assert ((cf_numshatters c <=? 0)%Z = false) as X by lia. rewrite X in Hw. destruct (blotter_from_config (cf_blot c)); try discriminate. cbn [bind] in Hw.
  injection Hw as <-. rewrite repeat_length in L. lia.
Qed.
Print Assumptions C81_add_refuted.
Print Assumptions C81_close_refuted.
Print Assumptions C81_reached.

(** The hypotheses are met by the default configuration: an Indexer that has been closed
    without adding a document. *)
Example C81_example : forall u, exists ws st, start_workers wit_config = Ok ws /\
  session_steps u wit_config (session_start 0 ws (repeat shard_create 2) []) st /\ final st /\ s_workers st <> [].
Proof.
  intros u. assert (exists ws, start_workers wit_config = Ok ws) as [ws Hw] by (eexists; reflexivity). exists ws.
  destruct (C81_reached u wit_config 1 10 2 ws 0 [] (repeat shard_create 2) (cu_ok _ _ _ _ wit_full)) as (st & X); try reflexivity; try exact Hw.
  exists st. split; [exact Hw|exact X].
Qed.
