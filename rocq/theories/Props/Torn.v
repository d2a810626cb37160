(** C96: an append session that is stopped between the two writes of a batch. *)
From Coq Require Import String.
From Verif Require Import Model.Base Model.Utf8 Model.Token Model.Blotter Model.Post Model.Poster Model.Shatter Model.Shard Model.Dmd Model.Fnames Model.Conc Model.Config Model.Json Model.Run Model.Index Model.Query Model.Session Model.Crash Model.Live.
From Verif Require Import Spec.Text Spec.Fingerprint Spec.Configs Spec.Paths Spec.Reading Spec.Querying Spec.History Spec.Str Spec.Live.
From Verif Require Import Proof.Tactics Proof.TokenP Proof.BlotterP Proof.ShardP Proof.QueryP Proof.QueryW Proof.SessionP Proof.SessionP2 Proof.CrashP Proof.LiveP Proof.LinkCutP2.
Local Open Scope N_scope.
Local Open Scope list_scope.

(** C96 fails. One document [p] is appended to an index, and it shares the blot [blot] with
    documents already there. Then the session can be stopped such that the link of the last
    earlier batch of that blot has been set to the place of the new batch and the new batch
    has not been written. The directory [fs] left then opens for reading, but the query for
    all documents with the blot ends with an error, and so it does for readers that opened the index before
    the session. It can never be appended to again: OpenIndexer ends with an error. *)
Theorem C96_stopped_append_tears_refuted : forall u c k m n, cfg_full c k m n -> cfg_values c -> (0 < cf_numshatters c)%Z ->
  forall ss dk p wss ws blot, history u c ss dk -> docs_fit (all_docs ss ++ [p]) ->
  words_of (word_char u) (all_docs ss) wss -> words_of (word_char u) [p] [ws] ->
  carriers (word_hash u) k m n 0 wss (blot mod (N.of_nat n * 65536)) <> [] ->
  has_blot (word_hash u) k m n ws (blot mod (N.of_nat n * 65536)) = true ->
  exists fs, append_stopped u dk [p] fs /\ forall dirs, dirs (cf_root c) = fs ->
    (exists e, open_indexer_files dirs (cf_root c) = Err e) /\
    forall sorted, sorts sorted ->
      (exists ix, open_files sorted dirs (cf_root c) = Ok ix /\
         forall grow fuel, (List.length (all_docs ss) < fuel)%nat -> query_get grow ix fuel blot None = Err EOther) /\
      (forall ix, open_index sorted dk = Ok ix ->
         forall grow fuel, (List.length (all_docs ss) < fuel)%nat -> query_get grow (live ix fs) fuel blot None = Err EOther).
Proof.
  intros u c k m n F V Hsh ss dk p wss ws blot Hi Fit W0 W1 Hc Hb.
  exact (append_torn u c k m n F V ss dk p wss ws blot Hi Fit Hsh W0 W1 Hc Hb).
Qed.
Print Assumptions C96_stopped_append_tears_refuted.

(** What can still be got from such an index are the earlier documents, when no more are
    asked for than there are: C37_error_or_kept_partial. *)

(** Such an index: five documents, the first three with one text, which the sixth, being
    appended, has too. Before, the query gives the three documents. *)
Example C96_example u sorted : sorts sorted -> exists dk ix fs, history u wit_config [wit_docs] dk /\ open_index sorted dk = Ok ix /\
  append_stopped u dk [wit_doc "6" wit_text1] fs /\
  (exists e, open_indexer_files (fun _ => fs) (cf_root wit_config) = Err e) /\
  exists ix', open_files sorted (fun _ => fs) (cf_root wit_config) = Ok ix' /\
  forall grow fuel, (5 < fuel)%nat ->
    (exists ds, query_get grow ix fuel wit_blot1 None = Ok ds /\ docs_keys ds = map (place_of wit_docs) [1; 2; 3]) /\
    query_get grow ix' fuel wit_blot1 None = Err EOther.
Proof.
  intros Hs.
  assert (V : cfg_values wit_config) by (constructor; try (split; [vm_compute; discriminate|reflexivity]); apply Utf8P.utf8_valid_spec; vm_compute; reflexivity).
  destruct wit_full as [O Hn Hfl] eqn:EF.
  destruct (history_exists u wit_config 1 10 2 O Hn Hfl [wit_docs]) as [dk Hi]; [discriminate|reflexivity|exact wit_fit|].
  destruct (query_exact u wit_config 1 10 2 sorted wit_full Hs [wit_docs] dk wit_wss Hi wit_fit (wit_words u)) as (ix & Eo & Q).
  assert (Fit : docs_fit (all_docs [wit_docs] ++ [wit_doc "6" wit_text1])).
  { constructor; [|vm_compute; reflexivity|vm_compute; reflexivity].
    rewrite all_docs_one. apply Forall_app. split; [apply wit_fit|]. constructor; [|constructor]. split; [exists []; reflexivity|split; vm_compute; reflexivity]. }
  assert (Eb : wit_blot1 mod (N.of_nat 2 * 65536) = wit_blot1) by (vm_compute; reflexivity).
  assert (W1 : words_of (word_char u) [wit_doc "6" wit_text1] [wit_words1]).
  { pose proof (wit_words u) as W. unfold wit_docs, wit_wss in W. inversion W as [|? ? ? ? A _]. subst. constructor; [exact A|constructor]. }
  destruct (C96_stopped_append_tears_refuted u wit_config 1 10 2 wit_full V ltac:(reflexivity) [wit_docs] dk (wit_doc "6" wit_text1) wit_wss wit_words1 wit_blot1 Hi Fit (wit_words u) W1)
    as (fs & St & X).
  { rewrite Eb, wit_carriers, N.eqb_refl. discriminate. }
  { rewrite Eb, wit_has1. apply N.eqb_refl. }
  destruct (X (fun _ => fs) eq_refl) as [A B]. destruct (B sorted Hs) as [(ix' & E' & Q') _].
  exists dk, ix, fs. split; [exact Hi|]. split; [exact Eo|]. split; [exact St|]. split; [exact A|].
  exists ix'. split; [exact E'|]. intros grow fuel Lf. split; [|apply Q'; exact Lf].
  destruct (Q grow wit_blot1 fuel Lf) as (ds & E & K). exists ds. split; [exact E|]. rewrite K, Eb, wit_carriers, N.eqb_refl. reflexivity.
Qed.
