(** C95: queries while others append, every read at a moment of its own. *)
From Coq Require Import String Lia.
From Verif Require Import Model.Base Model.Utf8 Model.Token Model.Blotter Model.Post Model.Poster Model.Shatter Model.Shard Model.Dmd Model.Fnames Model.Conc Model.Config Model.Json Model.Run Model.Index Model.Query Model.Session Model.Crash Model.Live Model.Moments.
From Verif Require Import Spec.Text Spec.Fingerprint Spec.Configs Spec.Paths Spec.Reading Spec.Querying Spec.History Spec.Str Spec.Live.
From Verif Require Import Proof.Tactics Proof.TokenP Proof.BlotterP Proof.ShardP Proof.QueryP Proof.QueryW Proof.SessionP Proof.SessionP2 Proof.CrashP Proof.CrashP2 Proof.LiveP Proof.MomentsP.
Local Open Scope N_scope.
Local Open Scope list_scope.

(** C95. [ix]: opened when the files were [dk]. [now t]: what the read with the number [t] of
    the query sees of the files. It may be from any moment since then, in any order: any
    number of sessions have ended and another one is somewhere in its work, Close included
    ([moment_after]); a read need not even see its bytes at one moment ([views]). A query
    for up to as many documents as the blot had when the index was opened gives them. *)
Theorem C95_earlier_documents : forall u c k m n sorted, cfg_full c k m n -> sorts sorted ->
  forall ss dk ix wss0 now, history u c ss dk -> docs_fit (all_docs ss) -> words_of (word_char u) (all_docs ss) wss0 -> open_index sorted dk = Ok ix ->
  (forall t, views (moment_after u dk (fun news => docs_fit (all_docs ss ++ all_docs news))) (now t)) ->
  forall grow blot fuel back,
  let ids0 := carriers (word_hash u) k m n 0 wss0 (blot mod (N.of_nat n * 65536)) in
  (List.length back <= List.length ids0)%nat -> (List.length (all_docs ss) < fuel)%nat ->
  exists ds, query_get_during grow ix now fuel blot (Some (0%nat, back)) = Ok ds /\
    docs_keys ds = map (place_of (all_docs ss)) (firstn (List.length back) ids0).
Proof.
  intros u c k m n sorted F Hs ss dk ix wss0 now Hi Fit W0 Eo V grow blot fuel back ids0 Lb Lf.
  destruct F as [O Hn Hfl] eqn:EF. destruct (history_inv u c k m n O Hn Hfl ss dk Hi Fit wss0 W0) as (fn0 & fs0 & D).
  exact (get_during u c k m n F sorted _ wss0 fn0 fs0 dk ix now grow blot fuel back Hs Fit D W0 Eo V Lb Lf).
Qed.
(** When all reads happen at one moment, the query is that of C85. *)
Theorem C95_one_moment : forall grow ix fs fuel blot ds,
  query_get_during grow ix (fun _ => fs) fuel blot ds = query_get grow (live ix fs) fuel blot ds.
Proof. exact get_once. Qed.
Print Assumptions C95_earlier_documents.
Print Assumptions C95_one_moment.

(** The index of C85_example: the reads see the files by turns before and after the session
    that makes the unlimited query panic. *)
Example C95_example u sorted : sorts sorted -> exists dk ix dk', history u wit_config [wit_docs] dk /\ open_index sorted dk = Ok ix /\
  since u dk [[wit_doc "6" wit_text1]] dk' /\
  forall grow fuel back, (5 < fuel)%nat -> List.length back = 3%nat ->
    exists ds, query_get_during grow ix (fun t => if Nat.even t then files_of dk else files_of dk') fuel wit_blot1 (Some (0%nat, back)) = Ok ds /\
      docs_keys ds = map (place_of wit_docs) [1; 2; 3].
Proof.
  intros Hs. destruct wit_full as [O Hn Hfl] eqn:EF.
  destruct (history_exists u wit_config 1 10 2 O Hn Hfl [wit_docs]) as [dk Hi]; [discriminate|reflexivity|exact wit_fit|].
  destruct (query_exact u wit_config 1 10 2 sorted wit_full Hs [wit_docs] dk wit_wss Hi wit_fit (wit_words u)) as (ix & Eo & _).
  assert (Fit : docs_fit (all_docs [wit_docs] ++ [wit_doc "6" wit_text1])).
  { constructor; [|vm_compute; reflexivity|vm_compute; reflexivity].
    rewrite all_docs_one. apply Forall_app. split; [apply wit_fit|]. constructor; [|constructor]. split; [exists []; reflexivity|split; vm_compute; reflexivity]. }
  destruct (since_exists u wit_config 1 10 2 wit_full [wit_docs] dk [wit_doc "6" wit_text1] Hi Fit ltac:(reflexivity)) as [dk' Si].
  exists dk, ix, dk'. split; [exact Hi|]. split; [exact Eo|]. split; [exact Si|]. intros grow fuel back Lf Lb.
  assert (Eb : wit_blot1 mod (N.of_nat 2 * 65536) = wit_blot1) by (vm_compute; reflexivity).
  assert (V : forall dk1 news, since u dk news dk1 -> docs_fit (all_docs [wit_docs] ++ all_docs news) ->
    views (moment_after u dk (fun news => docs_fit (all_docs [wit_docs] ++ all_docs news))) (files_of dk1)).
  { intros dk1 news S1 Fit1. pose proof (since_history u wit_config _ _ _ _ Hi S1) as Hi1.
    assert (Fit2 : docs_fit (all_docs (news ++ [wit_docs]))) by (rewrite all_docs_app; exact Fit1).
    destruct (words_total u (all_docs (news ++ [wit_docs]))) as [w W].
    destruct (history_inv u wit_config 1 10 2 O Hn Hfl _ dk1 Hi1 Fit2 w W) as (fn1 & fs1 & D1).
    eapply views_one.
    - exists news, dk1, []. split; [exact S1|]. split; [exact Fit1|]. exact (append_stopped_start u wit_config 1 10 2 wit_full _ dk1 [] Hi1 Fit2).
    - exact (di_dmd _ _ _ _ _ _ _ _ _ _ D1).
    - apply Forall_forall. intros fl Hf. unfold files_of in Hf. cbn [w_shards] in Hf. apply in_map_iff in Hf. destruct Hf as (p & <- & _). eexists. reflexivity. }
  destruct (C95_earlier_documents u wit_config 1 10 2 sorted wit_full Hs [wit_docs] dk ix wit_wss
    (fun t => if Nat.even t then files_of dk else files_of dk') Hi wit_fit (wit_words u) Eo) with (grow := grow) (blot := wit_blot1) (fuel := fuel) (back := back) as (ds & E & K).
  - intros t. destruct (Nat.even t); [apply (V dk []); [constructor|rewrite app_nil_r; exact wit_fit]|apply (V dk' _ Si), Fit].
  - rewrite Eb, wit_carriers, N.eqb_refl, Lb. apply le_n.
  - exact Lf.
  - exists ds. split; [exact E|]. rewrite K, Eb, wit_carriers, N.eqb_refl, Lb. reflexivity.
Qed.
(** Every read counts as one of its own: a small index, and the dmd file gone bad after any number
    [t] of reads. The query reads the length of the batch, the batch, and a record for each of the
    two documents, so it gives both of them when the first four reads are good, and else fails. *)
Theorem C95_own_moments : forall c : config, exists ix good bad, forall grow fuel t, (3 < fuel)%nat ->
  let q := query_get_during grow ix (fun i => if (i <? t)%nat then good else bad) fuel 0 (Some (0%nat, repeat zero_doc 2)) in
  if (4 <=? t)%nat then exists ds, q = Ok ds /\ docs_keys ds = [(bs "/", 0, 7); (bs "/", 7, 9)] else exists e, q = Err e.
Proof.
  intros c. set (post := [20; 1; 1; 255; 255; 255; 255; 255; 255; 255; 255]).
  exists (MkIndex c [] new_fnames [MkShardIndex [0%Z] [2] [0%nat] post]).
  exists (MkFiles None (Some (List.concat (map enc_fields [zero_fields; MkFields 0 0 7; MkFields 0 7 9]))) None [(None, Some post)]).
  exists (MkFiles None (Some []) None [(None, Some [])]).
  intros grow fuel t Hf. destruct fuel as [|[|[|[|fuel]]]]; try (exfalso; clear -Hf; lia). cbn zeta.
  destruct t as [|[|[|[|t]]]].
  1-4: eexists; vm_compute; reflexivity.
  change (4 <=? S (S (S (S t))))%nat with true. eexists. split; vm_compute; reflexivity.
Qed.
Print Assumptions C95_own_moments.
