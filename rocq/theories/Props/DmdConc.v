(** C43: goroutines that query the same open index. *)
From Coq Require Import String.
From Verif Require Import Model.Base Model.Utf8 Model.Token Model.Blotter Model.Post Model.Poster Model.Shatter Model.Shard Model.Dmd Model.Fnames Model.Conc Model.Config Model.Run Model.Index Model.Query Model.Session Model.DmdConc.
From Verif Require Import Spec.Text Spec.Fingerprint Spec.Configs Spec.Paths Spec.Reading Spec.Querying Spec.History Spec.Str Spec.Turns.
From Verif Require Import Proof.Tactics Proof.TokenP Proof.BlotterP Proof.QueryP Proof.QueryW Proof.SessionP Proof.SessionP2 Proof.DmdConcP.
Local Open Scope N_scope.
Local Open Scope list_scope.

(** C43 fails on every index: when two Gets for blots that both have documents run at the
    same time, the first one can return, in place of its own first document, that of the
    other blot. ([h]: the open dmd file of the index.) *)
Theorem C43_concurrent_gets_refuted : forall grow ix n content place, index_ok ix n content place ->
  forall b1 d1 l1 b2 d2 l2 fuel h pos, at_blot n content b1 = d1 :: l1 -> at_blot n content b2 = d2 :: l2 ->
  (List.length (d1 :: l1) < fuel)%nat -> (List.length (d2 :: l2) < fuel)%nat ->
  (exists ds, query_get grow ix fuel b1 None = Ok ds /\ docs_keys ds = place d1 :: map place l1) /\
  exists pos' ds1 r2, csteps (ix_dmd ix) any (pos, cstart [(h, get_prog grow ix fuel b1 None); (h, get_prog grow ix fuel b2 None)])
    (pos', [MkGo h (Running (Finish (Ok ds1))); MkGo h (Running (Finish r2))]) /\
    docs_keys ds1 = place d2 :: map place l1.
Proof.
  intros grow ix n content place I b1 d1 l1 b2 d2 l2 fuel h pos E1 E2 L1 L2. split.
  - destruct (get_unlimited grow ix place n content I b1 fuel) as (ds & E & _ & El).
    { change (content (shard_of n b1) (slot_of n b1)) with (at_blot n content b1). rewrite E1. exact L1. }
    exists ds. split; [exact E|]. unfold docs_keys. rewrite El. change (content (shard_of n b1) (slot_of n b1)) with (at_blot n content b1). rewrite E1, map_map.
    cbn [map]. unfold key_doc, doc_key. cbn [d_path d_start d_end]. f_equal; [destruct (place d1) as [[? ?] ?]; reflexivity|].
    apply map_ext. intros d. destruct (place d) as [[? ?] ?]. reflexivity.
  - exact (get_overtaken grow ix n content place I b1 d1 l1 b2 d2 l2 fuel h pos E1 E2 L1 L2).
Qed.
(** Such an index, where the answer is wrong. *)
Theorem C43_wrong_document_refuted : exists c docs, default_config (bs "/") (bs "x") = Ok c /\ docs_fit docs /\
  forall u sorted grow fuel h pos, sorts sorted -> (5 < fuel)%nat ->
    (exists dk, history u c [docs] dk) /\
    forall dk, history u c [docs] dk -> exists ix b1 b2, open_index sorted dk = Ok ix /\
      exists alone1 together1 pos' r2, query_get grow ix fuel b1 None = Ok alone1 /\
        csteps (ix_dmd ix) any (pos, cstart [(h, get_prog grow ix fuel b1 None); (h, get_prog grow ix fuel b2 None)])
          (pos', [MkGo h (Running (Finish (Ok together1))); MkGo h (Running (Finish r2))]) /\
        docs_keys alone1 = [(bs "/1", 0, 22); (bs "/2", 0, 22); (bs "/3", 0, 22)] /\
        docs_keys together1 = [(bs "/4", 0, 22); (bs "/2", 0, 22); (bs "/3", 0, 22)].
Proof.
  exists wit_config, wit_docs. split; [exact wit_default|]. split; [exact wit_fit|]. intros u sorted grow fuel h pos Hs Hf. split.
  { destruct wit_full as [A B C]. apply (history_exists u wit_config 1 10 2 A B C); [discriminate|reflexivity|exact wit_fit]. }
  intros dk Hi. destruct (opened u wit_config 1 10 2 sorted wit_full Hs [wit_docs] dk wit_wss Hi wit_fit (wit_words u)) as (ix & E & I).
  assert (B1 : at_blot 2 (held (word_hash u) 1 10 2 wit_wss) wit_blot1 = [1; 2; 3]).
  { unfold at_blot, held. rewrite !N2Nat.id, wit_carriers. change (wit_blot1 / N.of_nat 2 mod 65536 * N.of_nat 2 + wit_blot1 mod N.of_nat 2) with wit_blot1. rewrite N.eqb_refl. reflexivity. }
  assert (B2 : at_blot 2 (held (word_hash u) 1 10 2 wit_wss) wit_blot2 = [4; 5]).
  { unfold at_blot, held. rewrite !N2Nat.id, wit_carriers. change (wit_blot2 / N.of_nat 2 mod 65536 * N.of_nat 2 + wit_blot2 mod N.of_nat 2) with wit_blot2.
    change (wit_blot1 =? wit_blot2) with false. rewrite N.eqb_refl. reflexivity. }
  destruct (C43_concurrent_gets_refuted grow ix 2 _ _ I wit_blot1 1 [2; 3] wit_blot2 4 [5] fuel h pos B1 B2) as ((ds & Ea & Ka) & pos' & ds1 & r2 & S & K1); [cbn [List.length]; lia..|].
  exists ix, wit_blot1, wit_blot2. split; [exact E|]. exists ds, ds1, pos', r2. split; [exact Ea|]. split; [exact S|]. split; [rewrite Ka|rewrite K1]; reflexivity.
Qed.
(** What holds. Any number of goroutines, doing any queries, of which no two look up a
    document at the same time on the same open index: each that has finished has got what
    it would have got alone. Missing: lookups at the same time. *)
Theorem C43_taking_turns_partial : forall A f (ps : list (nat * prog A)) pos st, csteps f turns (pos, cstart ps) st ->
  forall j h r, nth_error (snd st) j = Some (MkGo h (Running (Finish r))) -> exists p, nth_error ps j = Some p /\ r = alone f (snd p).
Proof.
  intros A f ps pos st H j h r E. destruct (taking_turns f pos ps st H j _ E) as (h' & p & Ep & T). exists (h', p). split; [exact Ep|]. exact T.
Qed.
(** So too if each has opened the index itself, in all interleavings. *)
Theorem C43_own_index_partial : forall A f (ps : list (nat * prog A)) pos st, own_files ps -> csteps f any (pos, cstart ps) st ->
  forall j h r, nth_error (snd st) j = Some (MkGo h (Running (Finish r))) -> exists p, nth_error ps j = Some p /\ r = alone f (snd p).
Proof. intros A f ps pos st O H. eapply C43_taking_turns_partial, own_files_turns; eauto. Qed.
(** For Get: *)
Theorem C43_get_alone : forall grow ix fuel blot ds, alone (ix_dmd ix) (get_prog grow ix fuel blot ds) = query_get grow ix fuel blot ds.
Proof. exact get_prog_alone. Qed.
(** Such runs can always be completed. *)
Theorem C43_all_can_finish : forall A f (ps : list (nat * prog A)) pos,
  exists pos', csteps f turns (pos, cstart ps) (pos', map (fun p => MkGo (fst p) (Running (Finish (alone f (snd p))))) ps).
Proof. intros A f ps pos. exact (all_finish f ps [] pos). Qed.
Print Assumptions C43_concurrent_gets_refuted.
Print Assumptions C43_wrong_document_refuted.
Print Assumptions C43_taking_turns_partial.
Print Assumptions C43_own_index_partial.
Print Assumptions C43_get_alone.
Print Assumptions C43_all_can_finish.
Example C43_example : own_files [(0%nat, Finish (Ok 1)); (1%nat, Look 3 (fun _ => Finish (Ok 2)))] /\ ~ own_files [(0%nat, Finish (Ok 1)); (0%nat, Finish (Ok 2))].
Proof.
  split.
  - intros [|[|[|i]]] [|[|[|j]]] p q; cbn [nth_error]; intros Ep Eq E; try discriminate; try reflexivity; injection Ep as <-; injection Eq as <-; discriminate.
  - intros O. specialize (O 0%nat 1%nat _ _ eq_refl eq_refl eq_refl). discriminate.
Qed.
