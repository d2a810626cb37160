(** C92: document numbers. *)
From Coq Require Import Lia.
From Verif Require Import Model.Base Model.Utf8 Model.Token Model.Blotter Model.Config Model.Run Model.Index Model.Query Model.Session.
From Verif Require Import Spec.Text Spec.Fingerprint Spec.Configs Spec.Paths Spec.Querying Spec.History.
From Verif Require Import Proof.Tactics Proof.QueryW Proof.SessionP Proof.DocidP.
Local Open Scope N_scope.

(** After any history, the number of the i-th document ever added leads to the absolute
    form of its path and its range, and a number beyond the last document to an error. *)
Theorem C92_docid : forall u c k m n sorted, cfg_full c k m n -> sorts sorted ->
  forall ss dk, history u c ss dk -> docs_fit (all_docs ss) ->
  exists ix, open_index sorted dk = Ok ix /\
    (forall i cwd d, nth_error (all_docs ss) i = Some (cwd, d) ->
      docid2doc ix (N.of_nat (S i)) = Ok (show_abs (spec_abs cwd (d_path d)), d_start d, d_end d)) /\
    forall did, nlen (all_docs ss) < did -> docid2doc ix did = Err EOF.
Proof.
  intros u c k m n sorted F Hs ss dk Hi Fit. destruct (docid_place u c k m n sorted F Hs ss dk Hi Fit) as (ix & Eo & A & B).
  exists ix. split; [exact Eo|]. split; [|exact B]. intros i cwd d E. assert (L : (i < length (all_docs ss))%nat) by (apply nth_error_Some; congruence).
  rewrite A by (unfold nlen; lia). unfold place_of. replace (N.to_nat (N.of_nat (S i) - 1)) with i by lia. rewrite E. reflexivity.
Qed.
Print Assumptions C92_docid.
(** The hypotheses are met. *)
Example C92_example : forall u, exists dk, history u wit_config [wit_docs] dk /\ docs_fit (all_docs [wit_docs]) /\ cfg_full wit_config 1 10 2.
Proof.
  intros u. assert (Fit : docs_fit (all_docs [wit_docs])) by (rewrite all_docs_one; exact wit_fit).
  destruct wit_full as [O Hn Hf] eqn:E.
  destruct (history_exists u wit_config 1 10 2 O Hn Hf [wit_docs] ltac:(discriminate) ltac:(reflexivity) Fit) as [dk H].
  exists dk. split; [exact H|]. split; [exact Fit|]. exact wit_full.
Qed.
