(** C85: an index that is open for reading while others append to it. *)
From Coq Require Import String.
From Verif Require Import Model.Base Model.Utf8 Model.Token Model.Blotter Model.Post Model.Poster Model.Shatter Model.Shard Model.Dmd Model.Fnames Model.Conc Model.Config Model.Json Model.Run Model.Index Model.Query Model.Session Model.Crash Model.Live.
From Verif Require Import Spec.Text Spec.Fingerprint Spec.Configs Spec.Paths Spec.Reading Spec.Querying Spec.History Spec.Str Spec.Live.
From Verif Require Import Proof.Tactics Proof.TokenP Proof.BlotterP Proof.ShardP Proof.QueryP Proof.QueryW Proof.SessionP Proof.SessionP2 Proof.CrashP Proof.LiveP.
Local Open Scope N_scope.
Local Open Scope list_scope.

(** C85 fails. [ix]: opened when the files were [dk]; since then the sessions [news] have
    appended, and queries work on [live ix (files_of dk')]. If a blot that some document of
    the earlier sessions has is also one of a new document whose path the index does not
    know (it is not that of an earlier document, nor a directory on the way to one), then
    the query for it panics: it does not even give the documents it used to give. *)
Theorem C85_panics_refuted : forall u c k m n sorted, cfg_full c k m n -> sorts sorted ->
  forall ss dk ix news dk' wss0 wss1, history u c ss dk -> open_index sorted dk = Ok ix -> since u dk news dk' ->
  docs_fit (all_docs ss ++ all_docs news) -> words_of (word_char u) (all_docs ss) wss0 -> words_of (word_char u) (all_docs news) wss1 ->
  forall grow blot fuel d p, (List.length (all_docs ss ++ all_docs news) < fuel)%nat ->
  carriers (word_hash u) k m n 0 wss0 (blot mod (N.of_nat n * 65536)) <> [] ->
  In d (carriers (word_hash u) k m n 0 (wss0 ++ wss1) (blot mod (N.of_nat n * 65536))) ->
  doc_at (all_docs ss ++ all_docs news) d p -> ~ known (all_docs ss) p ->
  query_get grow (live ix (files_of dk')) fuel blot None = Panic.
Proof.
  intros u c k m n sorted F Hs ss dk ix news dk' wss0 wss1 Hi Eo Si Fit W0 W1 grow blot fuel d p Lf Q Hd Ep Kn.
  destruct F as [O Hn Hfl] eqn:EF. destruct (history_inv u c k m n O Hn Hfl ss dk Hi (fit_app _ _ Fit) wss0 W0) as (fn0 & fs0 & D).
  apply (live_gets u c k m n sorted F Hs _ wss0 fn0 fs0 dk ix D Eo W0 news wss1 dk' Si Fit W1 grow blot fuel Lf); [exact Q|]. exists d, p. auto.
Qed.
(** It is a loss: before these sessions the query gave the documents (C27); and an index
    opened after them gives all of them. *)
Theorem C85_reopening_partial : forall u c k m n sorted, cfg_full c k m n -> sorts sorted ->
  forall ss dk news dk' wss, history u c ss dk -> since u dk news dk' ->
  docs_fit (all_docs ss ++ all_docs news) -> words_of (word_char u) (all_docs ss ++ all_docs news) wss ->
  exists ix', open_index sorted dk' = Ok ix' /\ forall grow blot fuel, (List.length (all_docs ss ++ all_docs news) < fuel)%nat ->
    exists ds, query_get grow ix' fuel blot None = Ok ds /\
      docs_keys ds = map (place_of (all_docs ss ++ all_docs news)) (carriers (word_hash u) k m n 0 wss (blot mod (N.of_nat n * 65536))).
Proof.
  intros u c k m n sorted F Hs ss dk news dk' wss Hi Si Fit Ww. pose proof (since_history u c ss dk news dk' Hi Si) as Hi'.
  rewrite <- all_docs_app in *. exact (query_exact u c k m n sorted F Hs _ dk' wss Hi' Fit Ww).
Qed.
(** What holds after the sessions: a query for a blot that no earlier document has finds
    nothing, as before; if the index knows the paths of all documents that have the blot
    now, all of them are returned. *)
Theorem C85_known_paths_partial : forall u c k m n sorted, cfg_full c k m n -> sorts sorted ->
  forall ss dk ix news dk' wss0 wss1, history u c ss dk -> open_index sorted dk = Ok ix -> since u dk news dk' ->
  docs_fit (all_docs ss ++ all_docs news) -> words_of (word_char u) (all_docs ss) wss0 -> words_of (word_char u) (all_docs news) wss1 ->
  forall grow blot fuel, (List.length (all_docs ss ++ all_docs news) < fuel)%nat ->
  let ids0 := carriers (word_hash u) k m n 0 wss0 (blot mod (N.of_nat n * 65536)) in
  let ids := carriers (word_hash u) k m n 0 (wss0 ++ wss1) (blot mod (N.of_nat n * 65536)) in
  (ids0 = [] -> query_get grow (live ix (files_of dk')) fuel blot None = Ok None) /\
  (ids0 <> [] -> (forall d p, In d ids -> doc_at (all_docs ss ++ all_docs news) d p -> known (all_docs ss) p) ->
    exists ds, query_get grow (live ix (files_of dk')) fuel blot None = Ok ds /\
      docs_keys ds = map (place_of (all_docs ss ++ all_docs news)) ids).
Proof.
  intros u c k m n sorted F Hs ss dk ix news dk' wss0 wss1 Hi Eo Si Fit W0 W1 grow blot fuel Lf ids0 ids.
  destruct F as [O Hn Hfl] eqn:EF. destruct (history_inv u c k m n O Hn Hfl ss dk Hi (fit_app _ _ Fit) wss0 W0) as (fn0 & fs0 & D).
  destruct (live_gets u c k m n sorted F Hs _ wss0 fn0 fs0 dk ix D Eo W0 news wss1 dk' Si Fit W1 grow blot fuel Lf) as (A & B & _). split; assumption.
Qed.
(** And at any time, also while another session is under way (between two of its system
    calls, Close included): a query for up to as many documents as the blot had gives them.
    C95: also when its reads happen at different times. Missing: queries with more room
    during a session. *)
Theorem C85_earlier_documents_partial : forall u c k m n sorted, cfg_full c k m n -> sorts sorted ->
  forall ss dk ix news dk' wss0 docs fs, history u c ss dk -> open_index sorted dk = Ok ix -> since u dk news dk' ->
  docs_fit (all_docs ss ++ all_docs news) -> words_of (word_char u) (all_docs ss) wss0 -> append_stopped u dk' docs fs ->
  forall grow blot fuel back,
  let ids0 := carriers (word_hash u) k m n 0 wss0 (blot mod (N.of_nat n * 65536)) in
  (List.length back <= List.length ids0)%nat -> (List.length (all_docs ss) < fuel)%nat ->
  exists ds, query_get grow (live ix fs) fuel blot (Some (0%nat, back)) = Ok ds /\
    docs_keys ds = map (place_of (all_docs ss)) (firstn (List.length back) ids0).
Proof.
  intros u c k m n sorted F Hs ss dk ix news dk' wss0 docs fs Hi Eo Si Fit W0 St grow blot fuel back ids0 Lb Lf.
  destruct (words_total u (all_docs news)) as [wss1 W1].
  destruct F as [O Hn Hfl] eqn:EF. destruct (history_inv u c k m n O Hn Hfl ss dk Hi (fit_app _ _ Fit) wss0 W0) as (fn0 & fs0 & D).
  exact (live_during u c k m n sorted F Hs _ wss0 fn0 fs0 dk ix D Eo W0 news wss1 dk' Si Fit W1 docs fs grow blot fuel back St Lb Lf).
Qed.
Print Assumptions C85_panics_refuted.
Print Assumptions C85_reopening_partial.
Print Assumptions C85_known_paths_partial.
Print Assumptions C85_earlier_documents_partial.

(** Such sessions: the default configuration, an index with five documents, to which a sixth
    with one of the texts is added. The query panics; and so it is with every index and
    every blot that gets a document with a new path. *)
Example C85_example u sorted : sorts sorted -> exists dk ix dk', history u wit_config [wit_docs] dk /\ open_index sorted dk = Ok ix /\
  since u dk [[wit_doc "6" wit_text1]] dk' /\
  forall grow fuel, (6 < fuel)%nat ->
    (exists ds, query_get grow ix fuel wit_blot1 None = Ok ds /\ docs_keys ds = map (place_of wit_docs) [1; 2; 3]) /\
    query_get grow (live ix (files_of dk')) fuel wit_blot1 None = Panic.
Proof.
  intros Hs. destruct wit_full as [O Hn Hfl] eqn:EF.
  destruct (history_exists u wit_config 1 10 2 O Hn Hfl [wit_docs]) as [dk Hi]; [discriminate|reflexivity|exact wit_fit|].
  destruct (query_exact u wit_config 1 10 2 sorted wit_full Hs [wit_docs] dk wit_wss Hi wit_fit (wit_words u)) as (ix & Eo & Q).
  assert (Fit : docs_fit (all_docs [wit_docs] ++ [wit_doc "6" wit_text1])).
  { constructor; [|vm_compute; reflexivity|vm_compute; reflexivity].
    rewrite all_docs_one. apply Forall_app. split; [apply wit_fit|]. constructor; [|constructor]. split; [exists []; reflexivity|split; vm_compute; reflexivity]. }
  destruct (since_exists u wit_config 1 10 2 wit_full [wit_docs] dk [wit_doc "6" wit_text1] Hi Fit ltac:(reflexivity)) as [dk' Si].
  exists dk, ix, dk'. split; [exact Hi|]. split; [exact Eo|]. split; [exact Si|]. intros grow fuel Lf.
  assert (Eb : wit_blot1 mod (N.of_nat 2 * 65536) = wit_blot1) by (vm_compute; reflexivity). split.
  - destruct (Q grow wit_blot1 fuel ltac:(cbn; lia)) as (ds & E & K). exists ds. split; [exact E|]. rewrite K, Eb, wit_carriers, N.eqb_refl. reflexivity.
  - assert (W1 : words_of (word_char u) (all_docs [[wit_doc "6" wit_text1]]) [wit_words1]).
    { pose proof (wit_words u) as W. unfold wit_docs, wit_wss in W. inversion W as [|? ? ? ? A _]. subst. constructor; [exact A|constructor]. }
    apply (C85_panics_refuted u wit_config 1 10 2 sorted wit_full Hs [wit_docs] dk ix [[wit_doc "6" wit_text1]] dk' wit_wss [wit_words1] Hi Eo Si Fit (wit_words u) W1
      grow wit_blot1 fuel 6 (wit_doc "6" wit_text1)).
    + cbn. lia.
    + rewrite Eb, wit_carriers, N.eqb_refl. discriminate.
    + rewrite CrashP3.carriers_app. apply in_or_app. right. rewrite Eb. cbn [carriers]. rewrite wit_has1, N.eqb_refl. left. reflexivity.
    + reflexivity.
    + intros (q & suf & Hq & E). rewrite all_docs_one in Hq. repeat (destruct Hq as [<-|Hq]; [vm_compute in E; discriminate E|]). destruct Hq.
Qed.
