(** C26-C32: what queries return. *)
From Coq Require Import String Sorting.Sorted.
From Verif Require Import Model.Base Model.Utf8 Model.Token Model.Blotter Model.Post Model.Poster Model.Shatter Model.Shard Model.Dmd Model.Fnames Model.Conc Model.Config Model.Run Model.Index Model.Query Model.Session.
From Verif Require Import Spec.Text Spec.Fingerprint Spec.Configs Spec.Paths Spec.Reading Spec.Querying Spec.History Spec.Str.
From Verif Require Import Proof.Tactics Proof.TokenP Proof.BlotterP Proof.QueryP Proof.QueryP2 Proof.QueryP3 Proof.QueryW Proof.SortP Proof.SessionP Proof.SessionP2 Proof.LikeP3.
Local Open Scope N_scope.
Local Open Scope list_scope.

(** [history u c ss dk]: the sessions [ss] (latest first), each under any interleaving of
    its goroutines, can leave the files [dk]. The documents found are those that have the
    blot modulo n*65536, each once, in the order they were added. *)
Theorem C26_query_is_exact : forall u c k m n sorted, cfg_full c k m n -> sorts sorted ->
  forall ss dk wss, history u c ss dk -> docs_fit (all_docs ss) -> words_of (word_char u) (all_docs ss) wss ->
  exists ix, open_index sorted dk = Ok ix /\
  forall grow blot fuel, (List.length (all_docs ss) < fuel)%nat ->
  exists ds, query_get grow ix fuel blot None = Ok ds /\
    docs_keys ds = map (place_of (all_docs ss)) (carriers (word_hash u) k m n 0 wss (blot mod (N.of_nat n * 65536))).
Proof. intros u c k m n sorted F S. exact (query_exact u c k m n sorted F S). Qed.
(** Every history can happen (so this is not about nothing) ... *)
Theorem C26_histories_exist : forall u c k m n, cfg_full c k m n -> (0 < cf_numshatters c)%Z ->
  forall ss, ss <> [] -> docs_fit (all_docs ss) -> exists dk, history u c ss dk.
Proof. intros u c k m n [A B C] Hs ss Ne Fit. exact (history_exists u c k m n A B C ss Ne Hs Fit). Qed.
(** ... and gives an index as C27-C31 are about. *)
Theorem C26_opened : forall u c k m n sorted, cfg_full c k m n -> sorts sorted ->
  forall ss dk wss, history u c ss dk -> docs_fit (all_docs ss) -> words_of (word_char u) (all_docs ss) wss ->
  exists ix, open_index sorted dk = Ok ix /\ index_ok ix n (held (word_hash u) k m n wss) (place_of (all_docs ss)).
Proof. intros u c k m n sorted F S. exact (opened u c k m n sorted F S). Qed.
(** The ids that doc2id gives the documents are those under which they are filed. *)
Theorem C26_ids_agree : forall u c k m n, cfg_full c k m n ->
  (forall x ws docs, create_indexer c = Ok (x, ws) -> docs_fit docs ->
    adder_last (fst (x_dmds x)) = 0 /\ exists fn dm, doc_ids (x_fnames x) (x_dmds x) docs =
      Ok (fn, dm, map (fun i => adder_last (fst (x_dmds x)) + 1 + N.of_nat i) (seq 0 (List.length docs)))) /\
  (forall ss dk x ws docs, history u c ss dk -> open_indexer dk = Ok (x, ws) -> docs_fit (all_docs ss ++ docs) ->
    adder_last (fst (x_dmds x)) = nlen (all_docs ss) /\ exists fn dm, doc_ids (x_fnames x) (x_dmds x) docs =
      Ok (fn, dm, map (fun i => adder_last (fst (x_dmds x)) + 1 + N.of_nat i) (seq 0 (List.length docs)))).
Proof. intros u c k m n F. exact (session_ids_agree u c k m n F). Qed.
Theorem C26_sorting_exists : exists sorted, sorts sorted.
Proof. exact sorts_exists. Qed.
Print Assumptions C26_query_is_exact.
Print Assumptions C26_histories_exist.
Print Assumptions C26_opened.
Print Assumptions C26_ids_agree.
Print Assumptions C26_sorting_exists.
(** Five documents in the default configuration. *)
Example C26_example : default_config (bs "/") (bs "x") = Ok wit_config /\ cfg_full wit_config 1 10 2 /\
  (0 < cf_numshatters wit_config)%Z /\ docs_fit (all_docs [wit_docs]) /\
  forall u, words_of (word_char u) (all_docs [wit_docs]) wit_wss /\
    map (place_of wit_docs) (carriers (word_hash u) 1 10 2 0 wit_wss wit_blot2) = [(bs "/4", 0, 22); (bs "/5", 0, 22)].
Proof.
  split; [exact wit_default|]. split; [exact wit_full|]. split; [reflexivity|]. split; [exact wit_fit|]. intros u.
  split; [exact (wit_words u)|]. rewrite wit_carriers. vm_compute. reflexivity.
Qed.

(** The other half of C21. *)
Theorem C21_copied_text_is_found_partial : forall u c k m n sorted, cfg_full c k m n -> sorts sorted ->
  forall ss dk, history u c ss dk -> docs_fit (all_docs ss) ->
  exists ix, open_index sorted dk = Ok ix /\
  forall i1 i2 cwd1 cwd2 d1 d2 a1 x1 b1 a2 x2 b2 run, List.length run = (k * m)%nat ->
    nth_error (all_docs ss) i1 = Some (cwd1, d1) -> nth_error (all_docs ss) i2 = Some (cwd2, d2) ->
    doc_words (word_char u) (d_dat d1) (a1 ++ x1 :: run ++ b1) ->
    doc_words (word_char u) (d_dat d2) (a2 ++ x2 :: run ++ b2) ->
    exists blot, forall grow fuel, (List.length (all_docs ss) < fuel)%nat ->
      exists ds, query_get grow ix fuel blot None = Ok ds /\
        In (show_abs (spec_abs cwd1 (d_path d1)), d_start d1, d_end d1) (docs_keys ds) /\
        In (show_abs (spec_abs cwd2 (d_path d2)), d_start d2, d_end d2) (docs_keys ds).
Proof. intros u c k m n sorted F S. exact (copied_text_found u c k m n sorted F S). Qed.
Print Assumptions C21_copied_text_is_found_partial.

(** C27: with a slice of length [len] and capacity [length back]. *)
Theorem C27_limited_query : forall grow ix n content place, index_ok ix n content place ->
  forall blot len back, (len <= List.length back)%nat ->
  let all := at_blot n content blot in let new := firstn (List.length back - len) all in
  forall fuel, (List.length all < fuel)%nat ->
  exists back', query_get grow ix fuel blot (Some (len, back)) = Ok (Some ((len + List.length new)%nat, back')) /\
    List.length back' = List.length back /\ firstn len back' = firstn len back /\
    docs_keys (Some ((len + List.length new)%nat, back')) = docs_keys (Some (len, back)) ++ map place new.
Proof.
  intros grow ix n content place I blot len back L all new fuel Lf.
  exists (store len (map place new) back). split; [apply (get_limited grow ix place n content I blot len back L fuel Lf)|].
  split; [apply store_length|]. split; [apply store_firstn; [exact grow|apply Nat.le_refl]|]. unfold docs_keys. cbn [docs_list].
  replace (List.length new) with (List.length (map place new)) by apply map_length. apply store_keys; [exact grow|].
  rewrite map_length. unfold new. rewrite firstn_length. lia.
Qed.
Theorem C27_unlimited_query : forall grow ix n content place, index_ok ix n content place ->
  forall blot fuel, (List.length (at_blot n content blot) < fuel)%nat ->
  exists ds, query_get grow ix fuel blot None = Ok ds /\ docs_keys ds = map place (at_blot n content blot).
Proof.
  intros grow ix n content place I blot fuel Lf. destruct (get_unlimited grow ix place n content I blot fuel Lf) as (ds & E & _ & El).
  exists ds. split; [exact E|]. unfold docs_keys. rewrite El, map_map. apply map_ext. intros d. unfold key_doc, doc_key.
  destruct (place d) as [[p a] b]. reflexivity.
Qed.
Print Assumptions C27_limited_query.
Print Assumptions C27_unlimited_query.

Lemma unlimited_roomy n content dst : unlimited dst -> Forall (roomy n content) dst.
Proof. apply Forall_impl. intros e E. unfold roomy. rewrite E. exact Logic.I. Qed.
Lemma queried_mono grow ix fuel (P Q : list blot_entry -> Prop) q out : (forall d, P d -> Q d) -> queried grow ix fuel P q out -> queried grow ix fuel Q q out.
Proof. intros H. induction 1; [constructor|]. eapply queried_next; eauto. Qed.

(** C28: [queried ... q out]: calls of Next with unlimited entries, any number of them in
    any call, have returned [out] and left the state [q]. When the next call reports end of
    file ... *)
Theorem C28_every_duplicate_once : forall grow ix n content place, index_ok ix n content place ->
  forall fuel, (forall s b, (s < n)%nat -> (b < num_slots)%nat -> (List.length (content s b) < fuel)%nat) ->
  forall q out dst k r, queried grow ix fuel unlimited q out -> unlimited dst ->
  query_next grow ix fuel k q dst = Ok (r, true) ->
  NoDup (map be_blot out) /\ (forall blot, In blot (map be_blot out) <-> duplicated n content blot) /\
  (forall e, In e out -> docs_keys (be_docs e) = map place (at_blot n content (be_blot e))).
Proof.
  intros grow ix n content place I fuel Hf q out dst k r Q U E.
  apply (next_complete grow ix place n content I fuel Hf q out k dst r); auto; [|apply unlimited_roomy, U].
  eapply queried_mono; [|exact Q]. apply unlimited_roomy.
Qed.
(** ... and this happens, after finitely many calls that all return. *)
Theorem C28_next_returns : forall grow ix n content place, index_ok ix n content place ->
  forall fuel, (forall s b, (s < n)%nat -> (b < num_slots)%nat -> (List.length (content s b) < fuel)%nat) ->
  forall q out dst, queried grow ix fuel unlimited q out -> unlimited dst ->
  (exists k r eof, query_next grow ix fuel k q dst = Ok (r, eof)) /\
  (dst <> [] -> exists q' out' k r, queried grow ix fuel unlimited q' (out ++ out') /\ query_next grow ix fuel k q' dst = Ok (r, true)).
Proof.
  intros grow ix n content place I fuel Hf q out dst Q U.
  pose proof (queried_mono _ _ _ _ _ _ _ (unlimited_roomy n content) Q) as Q'.
  split; [apply (next_returns grow ix place n content I fuel Hf q out dst Q' (unlimited_roomy _ _ _ U))|]. intros Ne.
  exact (calls_end grow ix place n content I fuel Hf unlimited (unlimited_roomy n content) dst U Ne q out Q).
Qed.
Print Assumptions C28_every_duplicate_once.
Print Assumptions C28_next_returns.

Theorem C29_in_order_of_frequency : forall grow ix n content place, index_ok ix n content place ->
  forall fuel, (forall s b, (s < n)%nat -> (b < num_slots)%nat -> (List.length (content s b) < fuel)%nat) ->
  forall q out, queried grow ix fuel unlimited q out ->
  StronglySorted (fun e e' => (List.length (docs_keys (be_docs e')) <= List.length (docs_keys (be_docs e)))%nat) out.
Proof.
  intros grow ix n content place I fuel Hf q out Q. apply (next_sorted grow ix place n content I fuel Hf q).
  eapply queried_mono; [|exact Q]. apply unlimited_roomy.
Qed.
Print Assumptions C29_in_order_of_frequency.

(** The same of the index opened after any history, in terms of its documents. *)
Section Histories.
  Variables (u : unicode) (c : config) (k m n : nat) (sorted : list N -> list nat).
  Hypothesis F : cfg_full c k m n.
  Hypothesis S : sorts sorted.
  Variables (ss : list (list (bytes * doc))) (dk : disk) (wss : list (list bytes)).
  Hypothesis Hi : history u c ss dk.
  Hypothesis Fit : docs_fit (all_docs ss).
  Hypothesis Ww : words_of (word_char u) (all_docs ss) wss.
  Notation having q := (carriers (word_hash u) k m n 0 wss q).

  Lemma held_short s b fuel : (List.length (all_docs ss) < fuel)%nat -> (List.length (held (word_hash u) k m n wss s b) < fuel)%nat.
  Proof.
    intros L. unfold held. pose proof (carriers_len (word_hash u) k m n (N.of_nat b * N.of_nat n + N.of_nat s) wss 0). pose proof (words_of_len _ _ _ Ww). lia.
  Qed.
  Lemma pos_n : (0 < n)%nat.
  Proof. exact (co_n _ _ _ _ (cu_ok _ _ _ _ F)). Qed.
  Lemma at_held q : q < N.of_nat n * 65536 -> at_blot n (held (word_hash u) k m n wss) q = having q.
  Proof. intros L. apply at_blot_held; [exact pos_n|exact L]. Qed.

  Theorem C27_histories : exists ix, open_index sorted dk = Ok ix /\
    forall grow blot len back fuel, blot < N.of_nat n * 65536 -> (len <= List.length back)%nat -> (List.length (all_docs ss) < fuel)%nat ->
    let new := firstn (List.length back - len) (having blot) in
    exists back', query_get grow ix fuel blot (Some (len, back)) = Ok (Some ((len + List.length new)%nat, back')) /\
      List.length back' = List.length back /\ firstn len back' = firstn len back /\
      docs_keys (Some ((len + List.length new)%nat, back')) = docs_keys (Some (len, back)) ++ map (place_of (all_docs ss)) new.
  Proof.
    destruct (opened u c k m n sorted F S ss dk wss Hi Fit Ww) as (ix & E & I). exists ix. split; [exact E|]. intros grow blot len back fuel Lb Ll Lf.
    destruct (C27_limited_query grow ix n _ _ I blot len back Ll fuel ltac:(apply held_short; exact Lf)) as (back' & X). rewrite (at_held _ Lb) in X. exists back'. exact X.
  Qed.
  Theorem C28_histories : exists ix, open_index sorted dk = Ok ix /\
    forall grow fuel, (List.length (all_docs ss) < fuel)%nat ->
    forall q out dst, queried grow ix fuel unlimited q out -> unlimited dst ->
    (forall k r, query_next grow ix fuel k q dst = Ok (r, true) ->
       NoDup (map be_blot out) /\ (forall blot, In blot (map be_blot out) <-> blot < N.of_nat n * 65536 /\ (2 <= List.length (having blot))%nat) /\
       (forall e, In e out -> docs_keys (be_docs e) = map (place_of (all_docs ss)) (having (be_blot e)))) /\
    (exists k r eof, query_next grow ix fuel k q dst = Ok (r, eof)) /\
    (dst <> [] -> exists q' out' k r, queried grow ix fuel unlimited q' (out ++ out') /\ query_next grow ix fuel k q' dst = Ok (r, true)).
  Proof.
    destruct (opened u c k m n sorted F S ss dk wss Hi Fit Ww) as (ix & E & I). exists ix. split; [exact E|]. intros grow fuel Lf q out dst Q U.
    assert (Lh : forall s b, (s < n)%nat -> (b < num_slots)%nat -> (List.length (held (word_hash u) k m n wss s b) < fuel)%nat) by (intros; apply held_short, Lf).
    split; [|exact (C28_next_returns grow ix n _ _ I fuel Lh q out dst Q U)].
    intros k' r En. destruct (C28_every_duplicate_once grow ix n _ _ I fuel Lh q out dst k' r Q U En) as (A & B & C).
    assert (B' : forall blot, In blot (map be_blot out) <-> blot < N.of_nat n * 65536 /\ (2 <= List.length (having blot))%nat).
    { intros blot. rewrite B. unfold duplicated. split; intros [L X]; (split; [exact L|]); rewrite at_held in * by exact L; exact X. }
    split; [exact A|]. split; [exact B'|]. intros e He. rewrite (C e He), at_held; [reflexivity|]. apply B', in_map, He.
  Qed.
  Theorem C29_histories : exists ix, open_index sorted dk = Ok ix /\
    forall grow fuel, (List.length (all_docs ss) < fuel)%nat -> forall q out, queried grow ix fuel unlimited q out ->
    StronglySorted (fun e e' => (List.length (docs_keys (be_docs e')) <= List.length (docs_keys (be_docs e)))%nat) out /\
    StronglySorted (fun e e' => (List.length (having (be_blot e')) <= List.length (having (be_blot e)))%nat) out.
  Proof.
    destruct (opened u c k m n sorted F S ss dk wss Hi Fit Ww) as (ix & E & I). exists ix. split; [exact E|]. intros grow fuel Lf q out Q.
    assert (Lh : forall s b, (s < n)%nat -> (b < num_slots)%nat -> (List.length (held (word_hash u) k m n wss s b) < fuel)%nat) by (intros; apply held_short, Lf).
    pose proof (C29_in_order_of_frequency grow ix n _ _ I fuel Lh q out Q) as X. split; [exact X|].
    destruct (C28_histories) as (ix' & E' & Y). assert (ix' = ix) as -> by congruence.
    destruct (Y grow fuel Lf q out [MkEntry 0 None] Q ltac:(repeat constructor)) as (_ & _ & Z). destruct (Z ltac:(discriminate)) as (q' & out' & k' & r & Q' & En).
    destruct (Y grow fuel Lf q' (out ++ out') [MkEntry 0 None] Q' ltac:(repeat constructor)) as (W & _ & _). destruct (W _ _ En) as (_ & _ & K).
    assert (K' : forall e, In e out -> List.length (docs_keys (be_docs e)) = List.length (having (be_blot e))).
    { intros e He. rewrite (K e), map_length; [reflexivity|apply in_or_app; left; exact He]. }
    clear -X K'. induction X as [|e out X IH Fo]; constructor.
    - apply IH. intros e' He. apply K'. right. exact He.
    - rewrite Forall_forall in *. intros e' He. rewrite <- !K' by (auto using in_eq, in_cons). apply Fo, He.
  Qed.
End Histories.
Print Assumptions C27_histories.
Print Assumptions C28_histories.
Print Assumptions C29_histories.
(** The hypotheses on the index: C26_opened and C26_histories_exist. *)
Example C27_C29_example : exists n content dst fuel, n = 2%nat /\
  (forall s b, (s < n)%nat -> (b < num_slots)%nat -> (List.length (content s b) < fuel)%nat) /\ unlimited dst /\ dst <> [] /\
  content = held fnv32 1 10 2 wit_wss.
Proof.
  exists 2%nat, (held fnv32 1 10 2 wit_wss), [MkEntry 0 None], 6%nat. split; [reflexivity|]. split; [|split; [repeat constructor|split; [discriminate|reflexivity]]].
  intros s b _ _. unfold held. pose proof (carriers_len fnv32 1 10 2 (N.of_nat b * N.of_nat 2 + N.of_nat s) wit_wss 0) as X. cbn [wit_wss List.length] in X. lia.
Qed.

(** C30 fails: an index in the default configuration, made in one session from five
    documents, where calling Next with entries of capacity two up to end of file never
    returns a blot that has two documents. *)
Theorem C30_limited_entries_refuted : exists c docs,
  default_config (bs "/") (bs "x") = Ok c /\ cfg_full c 1 10 2 /\ docs_fit docs /\
  forall u sorted grow fuel, sorts sorted -> (5 < fuel)%nat ->
    (exists dk, history u c [docs] dk) /\
    forall dk, history u c [docs] dk ->
    exists ix content place blot, open_index sorted dk = Ok ix /\ index_ok ix 2 content place /\ duplicated 2 content blot /\
      (exists out, listing grow ix fuel room_for_two (start_query ix) out) /\
      forall out, listing grow ix fuel room_for_two (start_query ix) out -> ~ In blot (map be_blot out).
Proof. exact limited_query_misses. Qed.
(** What does hold: entries with more room than any blot has documents. Missing: entries
    that can fill up. *)
Theorem C30_limited_entries_partial : forall grow ix n content place, index_ok ix n content place ->
  forall fuel, (forall s b, (s < n)%nat -> (b < num_slots)%nat -> (List.length (content s b) < fuel)%nat) ->
  forall q out dst k r, queried grow ix fuel (Forall (roomy n content)) q out -> Forall (roomy n content) dst ->
  query_next grow ix fuel k q dst = Ok (r, true) ->
  NoDup (map be_blot out) /\ (forall blot, In blot (map be_blot out) <-> duplicated n content blot) /\
  (forall e, In e out -> docs_keys (be_docs e) = map place (at_blot n content (be_blot e))).
Proof. intros grow ix n content place I fuel Hf q out dst k r. exact (next_complete grow ix place n content I fuel Hf q out k dst r). Qed.
Print Assumptions C30_limited_entries_refuted.
Print Assumptions C30_limited_entries_partial.
Example C30_example : Forall (roomy 2 (held fnv32 1 10 2 wit_wss)) [MkEntry 0 (Some (0%nat, repeat zero_doc 6))].
Proof.
  constructor; [|constructor]. split; [reflexivity|]. intros s b _ _. unfold held.
  pose proof (carriers_len fnv32 1 10 2 (N.of_nat b * N.of_nat 2 + N.of_nat s) wit_wss 0) as X. cbn [wit_wss List.length repeat] in *. lia.
Qed.

(** C31 fails on every index: once a call has returned fewer blots than there was room for,
    the next call does not return within 2^32-1 rounds of its loop ... *)
Theorem C31_end_is_slow_refuted : forall grow ix n content place, index_ok ix n content place ->
  forall fuel, (forall s b, (s < n)%nat -> (b < num_slots)%nat -> (List.length (content s b) < fuel)%nat) ->
  forall q out dst k r eof, queried grow ix fuel (Forall (roomy n content)) q out -> Forall (roomy n content) dst ->
  query_next grow ix fuel k q dst = Ok (r, eof) -> (r_n r < List.length dst)%nat ->
  forall dst' k', Forall (roomy n content) dst' -> dst' <> [] -> N.of_nat k' < 2 ^ 32 -> query_next grow ix fuel k' (r_q r) dst' = Loop.
Proof. intros grow ix n content place I fuel Hf. exact (end_is_slow grow ix place n content I fuel Hf). Qed.
(** ... and there is such a call on every index. *)
Theorem C31_end_is_reached : forall grow ix n content place, index_ok ix n content place ->
  forall fuel, (forall s b, (s < n)%nat -> (b < num_slots)%nat -> (List.length (content s b) < fuel)%nat) ->
  exists q out dst k r, queried grow ix fuel (Forall (roomy n content)) q out /\ Forall (roomy n content) dst /\
    query_next grow ix fuel k q dst = Ok (r, true) /\ (r_n r < List.length dst)%nat.
Proof. intros grow ix n content place I fuel Hf. exact (end_reached grow ix place n content I fuel Hf). Qed.
Print Assumptions C31_end_is_reached.
(** Although in the end the next call reports end of file again. *)
Theorem C31_end_again_partial : forall grow ix n content place, index_ok ix n content place ->
  forall fuel, (forall s b, (s < n)%nat -> (b < num_slots)%nat -> (List.length (content s b) < fuel)%nat) ->
  forall q out dst k r eof, queried grow ix fuel (Forall (roomy n content)) q out -> Forall (roomy n content) dst ->
  query_next grow ix fuel k q dst = Ok (r, eof) -> (r_n r < List.length dst)%nat ->
  forall dst', Forall (roomy n content) dst' -> dst' <> [] ->
  exists k' r', query_next grow ix fuel k' (r_q r) dst' = Ok (r', true) /\ r_n r' = 0%nat.
Proof. intros grow ix n content place I fuel Hf. exact (end_again grow ix place n content I fuel Hf). Qed.
Print Assumptions C31_end_is_slow_refuted.
Print Assumptions C31_end_again_partial.

(** C32; the number of documents is one too many (see C07). *)
Theorem C32_statistics : forall u c k m n sorted, cfg_full c k m n -> sorts sorted ->
  forall ss dk wss, history u c ss dk -> docs_fit (all_docs ss) -> words_of (word_char u) (all_docs ss) wss ->
  exists ix, open_index sorted dk = Ok ix /\ index_stats ix =
    MkStats (1 + nlen (all_docs ss)) (nlen (tree_nodes (all_docs ss))) (pairs (word_hash u) k m n wss) (N.of_nat n * 65536).
Proof. intros u c k m n sorted F S. exact (stats_count u c k m n sorted F S). Qed.
Print Assumptions C32_statistics.
Example C32_example : forall u, nlen (tree_nodes wit_docs) = 6 /\ pairs (word_hash u) 1 10 2 wit_wss = 5.
Proof. intros u. split; vm_compute; reflexivity. Qed.
