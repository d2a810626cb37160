(** C111: what queries tell while others append. *)
From Coq Require Import String Lia.
From Verif Require Import Model.Base Model.Utf8 Model.Token Model.Blotter Model.Post Model.Poster Model.Shatter Model.Shard Model.Dmd Model.Fnames Model.Conc Model.Config Model.Json Model.Run Model.Index Model.Query Model.Session Model.Crash Model.Live Model.Moments Model.Timeline.
From Verif Require Import Spec.Text Spec.Fingerprint Spec.Configs Spec.Paths Spec.Reading Spec.Querying Spec.History Spec.Str Spec.Live.
From Verif Require Import Proof.Tactics Proof.TokenP Proof.BlotterP Proof.ShardP Proof.QueryP Proof.QueryW Proof.SessionP Proof.SessionP2 Proof.CrashP Proof.CrashP2 Proof.LiveP Proof.MomentsP Proof.TimelineP Props.Live Props.Moments.
Local Open Scope N_scope.
Local Open Scope list_scope.

(** C111. [ix]: opened when the files were [dk]. Since then the sessions [news] append one
    after the other, and each read of the query sees the file it reads at some moment of
    some of them, in any order ([seen_during]): between two posts, in the middle of one, in
    Close; an append to a file perhaps in part. If the query gives documents, then they are
    the first so many of those that have the blot after all these sessions, in order and
    each with its place; and those that had it when the index was opened are among them
    unless the room for the answer was filled first.

    Assumed: a read sees the eight bytes of a link, which the sessions overwrite in place, as
    they were before or after that write. Not claimed: that the query gives documents. It
    panics when it meets a document with a new path (C85), and fails when it meets one
    whose postings are in the file but whose record is not yet. *)
Theorem C111_answers_right : forall u c k m n sorted, cfg_full c k m n -> sorts sorted ->
  forall ss dk ix wss0 now news wss1, history u c ss dk -> open_index sorted dk = Ok ix ->
  docs_fit (all_docs ss ++ all_docs news) -> words_of (word_char u) (all_docs ss) wss0 -> words_of (word_char u) (all_docs news) wss1 ->
  (forall t, seen_during u dk news (now t)) ->
  forall grow blot fuel ds0 ds, docs_wf ds0 -> query_get_during grow ix now fuel blot ds0 = Ok ds ->
  let ids0 := carriers (word_hash u) k m n 0 wss0 (blot mod (N.of_nat n * 65536)) in
  let ids := carriers (word_hash u) k m n 0 (wss0 ++ wss1) (blot mod (N.of_nat n * 65536)) in
  exists i, (i <= List.length ids)%nat /\ docs_keys ds = docs_keys ds0 ++ map (place_of (all_docs ss ++ all_docs news)) (firstn i ids) /\
    ((List.length ids0 <= i)%nat \/ is_nil ds0 = false /\ docs_len ds = docs_cap ds).
Proof.
  intros u c k m n sorted F Hs ss dk ix wss0 now news wss1 Hi Eo Fit W0 W1 V grow blot fuel ds0 ds Wd Eq.
  destruct F as [O Hn Hfl] eqn:EF. destruct (history_inv u c k m n O Hn Hfl ss dk Hi (fit_app _ _ Fit) wss0 W0) as (fn0 & fs0 & D).
  exact (get_seen u c k m n F sorted _ wss0 fn0 fs0 dk ix now news wss1 grow blot fuel ds0 ds Hs D W0 Eo Fit W1 V Wd Eq).
Qed.
Print Assumptions C111_answers_right.

(** The index of C85_example, and a session that adds another document of a path it knows.
    The reads see the files by turns before and after it: a query with room for three
    documents gives the three there were. All of them after it: a query gives four. *)
Example C111_example u sorted : sorts sorted -> exists dk ix dk', history u wit_config [wit_docs] dk /\ open_index sorted dk = Ok ix /\
  since u dk [[wit_doc "1" wit_text1]] dk' /\
  (forall t : nat, seen_during u dk [[]; [wit_doc "1" wit_text1]] (if Nat.even t then files_of dk else files_of dk')) /\
  forall grow fuel back, (6 < fuel)%nat -> List.length back = 3%nat ->
    (exists ds, query_get_during grow ix (fun t => if Nat.even t then files_of dk else files_of dk') fuel wit_blot1 (Some (0%nat, back)) = Ok ds /\
      docs_keys ds = map (place_of wit_docs) [1; 2; 3]) /\
    exists ds, query_get_during grow ix (fun _ => files_of dk') fuel wit_blot1 None = Ok ds /\
      docs_keys ds = map (place_of (wit_docs ++ [wit_doc "1" wit_text1])) [1; 2; 3; 6].
Proof.
  intros Hs. destruct wit_full as [O Hn Hfl] eqn:EF.
  destruct (history_exists u wit_config 1 10 2 O Hn Hfl [wit_docs]) as [dk Hi]; [discriminate|reflexivity|exact wit_fit|].
  destruct (query_exact u wit_config 1 10 2 sorted wit_full Hs [wit_docs] dk wit_wss Hi wit_fit (wit_words u)) as (ix & Eo & _).
  assert (Fit : docs_fit (all_docs [wit_docs] ++ [wit_doc "1" wit_text1])).
  { constructor; [|vm_compute; reflexivity|vm_compute; reflexivity].
    rewrite all_docs_one. apply Forall_app. split; [apply wit_fit|]. constructor; [|constructor]. split; [exists []; reflexivity|split; vm_compute; reflexivity]. }
  destruct (since_exists u wit_config 1 10 2 wit_full [wit_docs] dk [wit_doc "1" wit_text1] Hi Fit ltac:(reflexivity)) as [dk' Si].
  exists dk, ix, dk'. split; [exact Hi|]. split; [exact Eo|]. split; [exact Si|].
  assert (Eb : wit_blot1 mod (N.of_nat 2 * 65536) = wit_blot1) by (vm_compute; reflexivity).
  split.
  { intros t. destruct (Nat.even t).
    - apply (seen_start u wit_config 1 10 2 wit_full [wit_docs] dk [[]] _ [] dk Hi); [constructor|rewrite app_nil_r; exact wit_fit].
    - apply (seen_start u wit_config 1 10 2 wit_full [wit_docs] dk [] [] _ dk' Hi Si Fit). }
  intros grow fuel back Lf Lb. split.
  - assert (V : forall dk1 news, since u dk news dk1 -> docs_fit (all_docs [wit_docs] ++ all_docs news) ->
      views (moment_after u dk (fun news => docs_fit (all_docs [wit_docs] ++ all_docs news))) (files_of dk1)).
    { intros dk1 news S1 Fit1. pose proof (since_history u wit_config _ _ _ _ Hi S1) as Hi1.
      assert (Fit2 : docs_fit (all_docs (news ++ [wit_docs]))) by (rewrite all_docs_app; exact Fit1).
      destruct (words_total u (all_docs (news ++ [wit_docs]))) as [w W].
      destruct (history_inv u wit_config 1 10 2 O Hn Hfl _ dk1 Hi1 Fit2 w W) as (fn1 & fs1 & D1).
      eapply views_one.
      - exists news, dk1, []. split; [exact S1|]. split; [exact Fit1|]. exact (append_stopped_start u wit_config 1 10 2 wit_full _ dk1 [] Hi1 Fit2).
      - exact (di_dmd _ _ _ _ _ _ _ _ _ _ D1).
      - apply Forall_forall. intros fl Hf. unfold files_of in Hf. cbn [w_shards] in Hf. apply in_map_iff in Hf. destruct Hf as (p & <- & _). eexists. reflexivity. }
    destruct (C95_earlier_documents u wit_config 1 10 2 sorted wit_full Hs [wit_docs] dk ix wit_wss
      (fun t => if Nat.even t then files_of dk else files_of dk') Hi wit_fit (wit_words u) Eo) with (grow := grow) (blot := wit_blot1) (fuel := fuel) (back := back) as (ds & E & K).
    + intros t. destruct (Nat.even t); [apply (V dk []); [constructor|rewrite app_nil_r; exact wit_fit]|apply (V dk' _ Si), Fit].
    + rewrite Eb, wit_carriers, N.eqb_refl, Lb. apply le_n.
    + cbn. lia.
    + exists ds. split; [exact E|]. rewrite K, Eb, wit_carriers, N.eqb_refl, Lb. reflexivity.
  - assert (W1 : words_of (word_char u) (all_docs [[wit_doc "1" wit_text1]]) [wit_words1]).
    { pose proof (wit_words u) as W. unfold wit_docs, wit_wss in W. inversion W as [|? ? ? ? A _]. subst. constructor; [exact A|constructor]. }
    rewrite C95_one_moment.
    destruct (C85_known_paths_partial u wit_config 1 10 2 sorted wit_full Hs [wit_docs] dk ix [[wit_doc "1" wit_text1]] dk' wit_wss [wit_words1] Hi Eo Si Fit (wit_words u) W1
      grow wit_blot1 fuel) as [_ A]; [cbn; lia|].
    assert (Ec : carriers (word_hash u) 1 10 2 0 (wit_wss ++ [wit_words1]) (wit_blot1 mod (N.of_nat 2 * 65536)) = [1; 2; 3; 6]).
    { rewrite CrashP3.carriers_app, Eb, wit_carriers, N.eqb_refl. cbn [carriers]. rewrite wit_has1, N.eqb_refl. reflexivity. }
    rewrite Ec in A. apply A.
    + rewrite Eb, wit_carriers, N.eqb_refl. discriminate.
    + intros d p Hd Ep. repeat (destruct Hd as [<-|Hd]; [vm_compute in Ep; injection Ep as <-; eexists _, []; rewrite app_nil_r; rewrite all_docs_one; split; [|reflexivity]; vm_compute; tauto|]).
      destruct Hd.
Qed.
