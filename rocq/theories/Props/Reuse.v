(** C84: calling Query.Next again with the entries it has filled. *)
From Coq Require Import String.
From Verif Require Import Model.Base Model.Address Model.Utf8 Model.Token Model.Blotter Model.Post Model.Poster Model.Shatter Model.Shard Model.Dmd Model.Fnames Model.Conc Model.Config Model.Run Model.Index Model.Query Model.Session.
From Verif Require Import Spec.Text Spec.Fingerprint Spec.Configs Spec.Posting Spec.Postings Spec.Paths Spec.Reading Spec.Querying Spec.History Spec.Str Spec.Limited Spec.Reuse.
From Verif Require Import Proof.Tactics Proof.QueryW Proof.SessionP2 Proof.ReuseP Proof.ReuseW.
Local Open Scope N_scope.
Local Open Scope list_scope.

(** It fails in the default configuration: five documents in one session, whose index has
    two blots with two documents or more. The first call, with a nil entry, returns one of
    them. The second call, with the entry as it is, returns the other with documents of the
    first; and with capacities as append makes them (1, 2, 4), every further call
    returns the same again, and never end of file. *)
Theorem C84_wrong_refuted : exists c docs,
  default_config (bs "/") (bs "x") = Ok c /\ cfg_full c 1 10 2 /\ docs_fit docs /\
  forall u sorted grow fuel, sorts sorted -> (5 < fuel)%nat ->
    (exists dk, history u c [docs] dk) /\
    forall dk, history u c [docs] dk ->
    exists ix content place, open_index sorted dk = Ok ix /\ index_ok ix 2 content place /\
      exists k1 q1 e1 k2 q2 e2, query_next grow ix fuel k1 (start_query ix) [MkEntry 0 None] = Ok (MkRun q1 [e1] 1, false) /\
        query_next grow ix fuel k2 q1 [e1] = Ok (MkRun q2 [e2] 1, false) /\
        (exists key, In key (docs_keys (be_docs e2)) /\ ~ In key (map place (at_blot 2 content (be_blot e2)))) /\
        ((grow 0 = 0 -> grow 1 = 0 -> grow 2 = 1 -> forall k, 1 < k -> query_next grow ix fuel k q2 [e2] = Ok (MkRun q2 [e2] 1, false))%nat).
Proof. exact reused_wrong. Qed.
(** On any index whatever: documents in an entry with two of them stay where they are, ... *)
Theorem C84_kept_refuted : forall grow ix fuel q dst k r eof, Forall used dst -> query_next grow ix fuel k q dst = Ok (r, eof) ->
  forall i e, nth_error dst i = Some e -> exists e' l, nth_error (r_dst r) i = Some e' /\ docs_list (be_docs e') = docs_list (be_docs e) ++ l.
Proof. exact next_begins. Qed.
(** ... and full entries are returned as they are, under the number of the next blot, without
    any progress: the state of the query is the same afterwards. *)
Theorem C84_forever_refuted : forall grow ix fuel q rs s dst k, (0 < fuel)%nat ->
  nth_error (q_states q) (N.to_nat (q_i q)) = Some (Some rs) -> nth_error (ix_shards ix) (N.to_nat (q_i q)) = Some s ->
  Forall full dst -> (List.length dst < k)%nat -> exists b,
  query_next grow ix fuel k q dst = Ok (MkRun q (map (fun e => MkEntry b (be_docs e)) dst) (List.length dst), false).
Proof. intros. eexists. eapply full_next; eassumption. Qed.
(** What holds, whatever the entries have been used for: every call returns, and what an
    entry has got is its old documents (none, if they were nil or cut to length 0, as C28 and
    C77 have it) and after them consecutive documents of its blot. *)
Theorem C84_next_partial : forall grow ix n content place, index_ok ix n content place ->
  forall fuel, (forall s b, (s < n)%nat -> (b < num_slots)%nat -> (List.length (content s b) < fuel)%nat) ->
  forall q out dst, queried grow ix fuel (Forall proper) q out -> Forall proper dst ->
  exists k r eof, query_next grow ix fuel k q dst = Ok (r, eof) /\
  forall i e, (i < r_n r)%nat -> nth_error (r_dst r) i = Some e -> exists e0, nth_error dst i = Some e0 /\ proper e /\ appended n content place e0 e.
Proof. intros grow ix n content place I fuel Hf q out dst. exact (used_next grow ix place n content I fuel Hf q out dst). Qed.
Print Assumptions C84_wrong_refuted.
Print Assumptions C84_kept_refuted.
Print Assumptions C84_forever_refuted.
Print Assumptions C84_next_partial.
(** Entries of the kinds named. (Indexes and states: C84_wrong_refuted.) *)
Example C84_example : Forall full [MkEntry 7 (Some (2%nat, [zero_doc; zero_doc]))] /\ Forall used [MkEntry 7 (Some (2%nat, [zero_doc; zero_doc; zero_doc]))] /\
  Forall proper [MkEntry 7 (Some (1%nat, [zero_doc; zero_doc; zero_doc])); MkEntry 0 None].
Proof.
  split; [|split]; repeat constructor.
Qed.
