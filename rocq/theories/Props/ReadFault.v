(** C105: queries whose reads fail. *)
From Coq Require Import String.
From Verif Require Import Model.Base Model.Utf8 Model.Token Model.Blotter Model.Post Model.Poster Model.Shatter Model.Shard Model.Dmd Model.Fnames Model.Address Model.Conc Model.Config Model.Run Model.Index Model.Query Model.Session Model.ReadFault.
From Verif Require Import Spec.Text Spec.Fingerprint Spec.Configs Spec.Paths Spec.Reading Spec.Querying Spec.History Spec.Str.
From Verif Require Import Proof.Tactics Proof.TokenP Proof.BlotterP Proof.QueryP Proof.QueryP2 Proof.QueryW Proof.SessionP Proof.SessionP2 Proof.ReadFaultP.
From Verif Require Import Props.Agree.
From Coq Require Import Lia.
Local Open Scope N_scope.
Local Open Scope list_scope.

(** Whichever reads fail, a Get or a Next that does not report an error has done what it does
    when none fails; and if none fails, it reports none. Missing: that a Next that has
    reported an error can be repeated (refuted below). *)
Theorem C105_error_or_answer_partial : forall grow ix fuel,
  (forall bad blot ds, match fst (query_get_r grow ix fuel bad blot ds) with Did r => r = query_get grow ix fuel blot ds | Failed _ => True end) /\
  (forall k bad q dst, match fst (query_next_r grow ix fuel k bad q dst) with Did r => r = query_next grow ix fuel k q dst | Failed _ => True end) /\
  (forall blot ds, fst (query_get_r grow ix fuel [] blot ds) = Did (query_get grow ix fuel blot ds)) /\
  (forall k q dst, fst (query_next_r grow ix fuel k [] q dst) = Did (query_next grow ix fuel k q dst)).
Proof.
  intros grow ix fuel. split; [intros; apply query_get_same|]. split; [intros; apply next_loop_same|].
  split; intros; [rewrite query_get_nil|unfold query_next_r; rewrite next_loop_nil]; reflexivity.
Qed.

(** Wherever Next, with one unlimited entry, would return a blot with three documents or
    more, one failing read makes it report an error instead, and the next call, with an
    unlimited entry and no failure, returns the blot without its first [i] documents and
    without an error; the query is then where it would have been without the failure, so
    they are never returned. This holds for each [i] from 1 up to all but two. *)
Theorem C105_documents_lost_refuted : forall grow ix fuel k q b r, query_next grow ix fuel k q [MkEntry b None] = Ok (r, false) ->
  exists e, r_dst r = [e] /\ r_n r = 1%nat /\
  forall i, (1 <= i)%nat -> (i + 2 <= List.length (docs_keys (be_docs e)))%nat ->
  exists bad r1, fst (query_next_r grow ix fuel k bad q [MkEntry b None]) = Failed r1 /\ r_n r1 = 0%nat /\
  forall b', exists e2, query_next grow ix fuel 2 (r_q r1) [MkEntry b' None] = Ok (MkRun (r_q r) [e2] 1, false) /\
    be_blot e2 = be_blot e /\ docs_keys (be_docs e2) = skipn i (docs_keys (be_docs e)).
Proof.
  intros grow ix fuel k q b r E. destruct (next_fail grow ix fuel k q b r E) as (e & A & B & _ & F). exists e. split; [exact A|]. split; [exact B|].
  intros [|j] L1 L2; [lia|]. destruct (F j ltac:(lia)) as (bad & r1 & e1 & H1 & H2 & H3 & H4 & H5 & H6 & H7).
  exists bad, r1. rewrite H1. split; [reflexivity|]. split; [exact H2|]. apply H6. lia.
Qed.
(** And with the entry as the failed call has left it, the next call returns the blot with a
    document that has no path and no extent. *)
Theorem C105_blank_document_refuted : forall grow ix fuel k q b r, query_next grow ix fuel k q [MkEntry b None] = Ok (r, false) ->
  exists e, r_dst r = [e] /\ r_n r = 1%nat /\
  forall i, (1 <= i < List.length (docs_keys (be_docs e)))%nat ->
  exists bad r1, fst (query_next_r grow ix fuel k bad q [MkEntry b None]) = Failed r1 /\ r_n r1 = 0%nat /\
  exists e2 q2, query_next grow ix fuel 2 (r_q r1) (r_dst r1) = Ok (MkRun q2 [e2] 1, false) /\
    be_blot e2 = be_blot e /\ nth_error (docs_keys (be_docs e2)) i = Some ([], 0, 0).
Proof.
  intros grow ix fuel k q b r E. destruct (next_fail grow ix fuel k q b r E) as (e & A & B & _ & F). exists e. split; [exact A|]. split; [exact B|].
  intros i Li. destruct (F i ltac:(lia)) as (bad & r1 & e1 & H1 & H2 & H3 & H4 & H5 & H6 & H7).
  exists bad, r1. rewrite H1, H3. split; [reflexivity|]. split; [exact H2|]. apply H7. lia.
Qed.
(** Get keeps nothing between calls, but its Blot does: given the Blot of a Get that has
    failed, the next one returns, without an error, what that one had put there, the blank
    document included. *)
Theorem C105_get_blank_refuted : forall grow ix fuel blot ds, query_get grow ix fuel blot None = Ok ds ->
  forall i, (i < List.length (docs_keys ds))%nat -> exists bad d1 d2, fst (query_get_r grow ix fuel bad blot None) = Failed d1 /\
  query_get grow ix fuel blot d1 = Ok d2 /\ firstn (S i) (docs_keys d2) = firstn i (docs_keys ds) ++ [([], 0, 0)].
Proof.
  intros grow ix fuel blot ds E i Li. destruct (get_fail grow ix fuel blot ds E i Li) as (bad & d1 & d2 & H1 & H2 & H3 & H4).
  exists bad, d1, d2. rewrite H1. split; [reflexivity|]. split; [exact H3|]. rewrite H4. exact H2.
Qed.
Print Assumptions C105_error_or_answer_partial.
Print Assumptions C105_documents_lost_refuted.
Print Assumptions C105_blank_document_refuted.
Print Assumptions C105_get_blank_refuted.

(** Such a call: the first one on the index of one session with three documents that are
    alike. It returns them all; of these, the first can be lost. *)
Definition three_docs : list (bytes * doc) := firstn 3 wit_docs.
Definition three_wss : list (list bytes) := firstn 3 wit_wss.
Lemma three_carriers u q : carriers (word_hash u) 1 10 2 0 three_wss q = if wit_blot1 =? q then [1; 2; 3] else [].
Proof. unfold three_wss, wit_wss. cbn [firstn carriers]. rewrite !wit_has1. destruct (_ =? _); reflexivity. Qed.
Example C105_example u sorted grow fuel b : sorts sorted -> (5 < fuel)%nat -> exists dk ix k r e, history u wit_config [three_docs] dk /\ open_index sorted dk = Ok ix /\
  query_next grow ix fuel k (start_query ix) [MkEntry b None] = Ok (r, false) /\ r_dst r = [e] /\
  docs_keys (be_docs e) = [(bs "/1", 0, 22); (bs "/2", 0, 22); (bs "/3", 0, 22)] /\
  query_get grow ix fuel wit_blot1 None = Ok (be_docs e).
Proof.
  intros Hs Hf.
  assert (Fit : docs_fit (all_docs [three_docs])).
  { constructor; [|vm_compute; reflexivity|vm_compute; reflexivity].
    repeat (constructor; [split; [exists []; reflexivity|split; vm_compute; reflexivity]|]). constructor. }
  assert (Ww : words_of (word_char u) (all_docs [three_docs]) three_wss).
  { pose proof (wit_words u) as X. unfold words_of, wit_docs, wit_wss in X. inversion X as [|? ? ? ? A1 X1]; subst. inversion X1 as [|? ? ? ? A2 X2]; subst.
    inversion X2 as [|? ? ? ? A3 X3]; subst. repeat (constructor; [assumption|]). constructor. }
  pose proof wit_full as F. destruct wit_full as [O Hn Hfl] eqn:EF.
  destruct (history_exists u wit_config 1 10 2 O Hn Hfl [three_docs]) as [dk Hi]; [discriminate|reflexivity|exact Fit|].
  destruct (opened u wit_config 1 10 2 sorted F Hs [three_docs] dk three_wss Hi Fit Ww) as (ix & E & Ix).
  set (place := place_of (all_docs [three_docs])) in *.
  assert (Len : forall s b0, (s < 2)%nat -> (b0 < num_slots)%nat -> (List.length (held (word_hash u) 1 10 2 three_wss s b0) < fuel)%nat).
  { intros s b0 _ _. unfold held. rewrite three_carriers. destruct (_ =? _); cbn [List.length]; lia. }
  assert (G : Forall (roomy 2 (held (word_hash u) 1 10 2 three_wss)) [MkEntry b None]) by (constructor; [exact Logic.I|constructor]).
  assert (At : at_blot 2 (held (word_hash u) 1 10 2 three_wss) wit_blot1 = [1; 2; 3]).
  { unfold at_blot, held. rewrite three_carriers. vm_compute. reflexivity. }
  pose proof (queried_start grow ix fuel (Forall (roomy 2 (held (word_hash u) 1 10 2 three_wss)))) as Q0.
  destruct (next_returns grow ix place 2 _ Ix fuel Len _ _ _ Q0 G) as (k & r & eof & En).
  assert (eof = false) as ->.
  { destruct eof; [|reflexivity]. destruct (next_complete grow ix place 2 _ Ix fuel Len _ _ _ _ _ Q0 G En) as (_ & C & _).
    destruct (proj2 (C wit_blot1)). split; [vm_compute; reflexivity|]. rewrite At. cbn [List.length]. lia. }
  destruct (next_fail grow ix fuel k _ b r En) as (e & Ed & Er & _).
  pose proof (queried_next grow ix fuel _ _ _ _ _ _ _ Q0 G En) as Q1. rewrite Ed, Er in Q1. cbn [firstn app] in Q1.
  destruct (next_sound grow ix place 2 _ Ix fuel Len _ _ Q1) as (_ & S1). destruct (S1 e (or_introl eq_refl)) as [[Lb Du] Ke].
  assert (Eb : be_blot e = wit_blot1).
  { unfold at_blot, held in Du. rewrite three_carriers in Du. destruct (N.eqb_spec wit_blot1 (N.of_nat (N.to_nat (be_blot e / N.of_nat 2 mod 65536)) * N.of_nat 2 + N.of_nat (N.to_nat (be_blot e mod N.of_nat 2)))) as [X|X]; [|cbn [List.length] in Du; lia].
    rewrite X, !N2Nat.id. rewrite (N.mod_small (be_blot e / N.of_nat 2)) by (apply N.div_lt_upper_bound; [discriminate|exact Lb]).
    rewrite N.mul_comm. apply N.div_mod. discriminate. }
  exists dk, ix, k, r, e. split; [exact Hi|]. split; [exact E|]. split; [exact En|]. split; [exact Ed|]. split.
  - rewrite Ke, Eb, At. vm_compute. reflexivity.
  - assert (U : unlimited [MkEntry b None]) by (constructor; [reflexivity|constructor]).
    pose proof (queried_next grow ix fuel unlimited _ _ _ _ _ _ (queried_start grow ix fuel unlimited) U En) as Q2. rewrite Ed, Er in Q2. cbn [firstn app] in Q2.
    rewrite <- Eb. pose proof (io_len _ _ _ _ Ix) as Ln.
    apply (C101_entries_are_answers grow ix fuel) with (q := r_q r) (out := [e]); [rewrite Ln; lia|unfold nlen; rewrite Ln; reflexivity| |exact Q2|left; reflexivity].
    intros si Hsi. apply In_nth_error in Hsi. destruct Hsi as [j Ej]. exact (io_perm _ _ _ _ Ix j si Ej).
Qed.
