(** C98: what an index tells after an append session was stopped is right. *)
From Coq Require Import String.
From Verif Require Import Model.Base Model.Utf8 Model.Token Model.Blotter Model.Post Model.Poster Model.Shatter Model.Shard Model.Dmd Model.Fnames Model.Conc Model.Config Model.Json Model.Run Model.Index Model.Query Model.Session Model.Crash.
From Verif Require Import Spec.Text Spec.Fingerprint Spec.Configs Spec.Paths Spec.Reading Spec.Querying Spec.History Spec.Str.
From Verif Require Import Proof.Tactics Proof.TokenP Proof.BlotterP Proof.ShardP Proof.QueryP Proof.QueryW Proof.SortP Proof.SessionP Proof.SessionP2 Proof.CrashP Proof.CrashP2 Proof.CrashP3 Proof.SoundP.
From Coq Require Import Lia.
Local Open Scope N_scope.
Local Open Scope list_scope.

(** Wherever the session is stopped, Close included and in the middle of a write: if the
    index opens and a query does not fail, then what it adds to the caller's slice is some
    of the documents, from the first on, that have the blot among the documents of the
    earlier sessions and those of this one; each once, in the order they were added, and
    with its path and offsets. *)
Theorem C98_answers_are_right : forall u c k m n, cfg_full c k m n -> cfg_values c ->
  forall sorted ss dk wss docs w1 fs dirs ix, sorts sorted -> history u c ss dk -> docs_fit (all_docs ss ++ docs) ->
  words_of (word_char u) (all_docs ss) wss -> words_of (word_char u) docs w1 ->
  append_stopped u dk docs fs -> dirs (cf_root c) = fs -> open_files sorted dirs (cf_root c) = Ok ix ->
  forall grow blot fuel ds0 ds, docs_wf ds0 -> query_get grow ix fuel blot ds0 = Ok ds ->
  exists i, docs_keys ds = docs_keys ds0 ++ map (place_of (all_docs ss ++ docs))
    (firstn i (carriers (word_hash u) k m n 0 (wss ++ w1) (blot mod (N.of_nat n * 65536)))).
Proof.
  intros u c k m n F V sorted ss dk wss docs w1 fs dirs ix Hs Hi Fit Ww W1 Ap Ed Eo grow blot fuel ds0 ds Wd Eq.
  destruct (append_stopped_sound u c k m n F V sorted ss dk wss docs w1 fs dirs ix Hs Hi Fit Ww W1 Ap Ed Eo grow blot fuel ds0 ds Wd Eq) as (seen & rest & E & K).
  exists (List.length seen). rewrite E, K, firstn_app_exact by reflexivity. reflexivity.
Qed.
(** And a query for all documents, or with room for those of the earlier sessions, has all
    of these. *)
Theorem C98_earlier_documents_are_there : forall u c k m n, cfg_full c k m n -> cfg_values c ->
  forall sorted ss dk wss docs w1 fs dirs ix, sorts sorted -> history u c ss dk -> docs_fit (all_docs ss ++ docs) ->
  words_of (word_char u) (all_docs ss) wss -> words_of (word_char u) docs w1 ->
  append_stopped u dk docs fs -> dirs (cf_root c) = fs -> open_files sorted dirs (cf_root c) = Ok ix ->
  forall grow blot fuel ds0 ds,
    let b := blot mod (N.of_nat n * 65536) in
    let old := carriers (word_hash u) k m n 0 wss b in
    (ds0 = None \/ exists back, ds0 = Some (0%nat, back) /\ (List.length old <= List.length back)%nat) ->
    query_get grow ix fuel blot ds0 = Ok ds ->
    exists new more, carriers (word_hash u) k m n 0 (wss ++ w1) b = old ++ new ++ more /\
      docs_keys ds = map (place_of (all_docs ss ++ docs)) (old ++ new).
Proof.
  intros u c k m n F V sorted ss dk wss docs w1 fs dirs ix Hs Hi Fit Ww W1 Ap Ed Eo grow blot fuel ds0 ds b old Hd Eq.
  assert (Wd : docs_wf ds0 /\ docs_len ds0 = 0%nat /\ docs_keys ds0 = [] /\ (is_nil ds0 = false -> (List.length old <= docs_cap ds0)%nat)).
  { destruct Hd as [->|(back & -> & L)]; [repeat split; discriminate|]. repeat split; [cbn [docs_wf]; lia|intros _; exact L]. }
  destruct Wd as (Wd & Zd & Kd & Cd).
  destruct (append_stopped_sound u c k m n F V sorted ss dk wss docs w1 fs dirs ix Hs Hi Fit Ww W1 Ap Ed Eo grow blot fuel ds0 ds Wd Eq) as (seen & rest & E & K).
  rewrite Kd in K. cbn [app] in K. fold b in E.
  destruct (append_stopped_any u c k m n F V sorted ss dk wss docs fs dirs Hs Hi Fit Ww Ap Ed) as [[e Fa]|(ix' & E' & Q)]; [congruence|].
  assert (ix' = ix) as -> by congruence. clear E'.
  destruct (Q grow blot (S (List.length (all_docs ss))) (repeat zero_doc (List.length old))) as (r1 & Q1 & K1); [rewrite repeat_length; apply Nat.le_refl|lia|]. clear Q.
  rewrite repeat_length in K1. fold b in K1. fold old in K1. rewrite firstn_all in K1.
  destruct (query_more grow ix _ fuel blot (repeat zero_doc (List.length old)) ds0 r1 ds Wd Zd ltac:(rewrite repeat_length; exact Cd) Q1 Eq) as [l Kl].
  assert (L : (List.length old <= List.length seen)%nat).
  { assert (X : List.length (docs_keys ds) = List.length (docs_keys r1 ++ l)) by congruence. rewrite K, K1, map_length, app_length, map_length in X. lia. }
  rewrite carriers_app in E. fold old in E.
  assert (P : exists new, seen = old ++ new).
  { exists (skipn (List.length old) seen). rewrite <- (firstn_skipn (List.length old) seen) at 1. f_equal.
    assert (X : firstn (List.length old) (seen ++ rest) = old) by (rewrite <- E; apply firstn_app_exact; reflexivity). rewrite <- X at 2.
    rewrite firstn_app. replace (List.length old - List.length seen)%nat with 0%nat by lia. cbn [firstn]. rewrite app_nil_r. reflexivity. }
  destruct P as [new ->]. exists new, rest. split; [|exact K]. rewrite carriers_app. fold old. rewrite E, <- app_assoc. reflexivity.
Qed.
Print Assumptions C98_answers_are_right.
Print Assumptions C98_earlier_documents_are_there.

(** The default configuration; a session stopped right at its start, and one stopped at its
    end, where the query gives the new document as well. *)
Example C98_example u sorted : sorts sorted -> cfg_full wit_config 1 10 2 /\ cfg_values wit_config /\ exists dk,
  history u wit_config [wit_docs] dk /\ docs_fit (all_docs [wit_docs] ++ [wit_doc "6" wit_text1]) /\
  words_of (word_char u) (all_docs [wit_docs]) wit_wss /\ words_of (word_char u) [wit_doc "6" wit_text1] [wit_words1] /\
  (append_stopped u dk [wit_doc "6" wit_text1] (files_of dk) /\ exists ix, open_files sorted (fun _ => files_of dk) (cf_root wit_config) = Ok ix /\
     forall grow fuel, (5 < fuel)%nat -> exists ds, query_get grow ix fuel wit_blot1 None = Ok ds /\ docs_keys ds = map (place_of wit_docs) [1; 2; 3]) /\
  exists fs, append_stopped u dk [wit_doc "6" wit_text1] fs /\ exists ix, open_files sorted (fun _ => fs) (cf_root wit_config) = Ok ix /\
     forall grow fuel, (6 < fuel)%nat -> exists ds, query_get grow ix fuel wit_blot1 None = Ok ds /\
       docs_keys ds = map (place_of (wit_docs ++ [wit_doc "6" wit_text1])) [1; 2; 3; 6].
Proof.
  intros Hs.
  assert (V : cfg_values wit_config) by (constructor; try (split; [vm_compute; discriminate|reflexivity]); apply Utf8P.utf8_valid_spec; vm_compute; reflexivity).
  split; [exact wit_full|]. split; [exact V|]. destruct wit_full as [O Hn Hfl] eqn:EF.
  destruct (history_exists u wit_config 1 10 2 O Hn Hfl [wit_docs]) as [dk Hi]; [discriminate|reflexivity|exact wit_fit|].
  assert (Fit : docs_fit (all_docs [wit_docs] ++ [wit_doc "6" wit_text1])).
  { constructor; [|vm_compute; reflexivity|vm_compute; reflexivity].
    rewrite all_docs_one. apply Forall_app. split; [apply wit_fit|]. constructor; [|constructor]. split; [exists []; reflexivity|split; vm_compute; reflexivity]. }
  assert (Eb : wit_blot1 mod (N.of_nat 2 * 65536) = wit_blot1) by (vm_compute; reflexivity).
  assert (W1 : words_of (word_char u) [wit_doc "6" wit_text1] [wit_words1]).
  { pose proof (wit_words u) as W. unfold wit_docs, wit_wss in W. inversion W as [|? ? ? ? A _]. subst. constructor; [exact A|constructor]. }
  assert (Op : forall ss dk', history u wit_config ss dk' -> docs_fit (all_docs ss) -> open_files sorted (fun _ => files_of dk') (cf_root wit_config) = open_index sorted dk').
  { intros ss dk' Hi' Fit'. destruct (words_total u (all_docs ss)) as [w W].
    destruct (history_inv u wit_config 1 10 2 O Hn Hfl ss dk' Hi' Fit' w W) as (fn0 & fs0 & D).
    apply (proj1 (open_files_of wit_config 1 10 2 wit_full V sorted (fun _ => files_of dk') dk' eq_refl (di_cfg _ _ _ _ _ _ _ _ _ _ D))). }
  exists dk. split; [exact Hi|]. split; [exact Fit|]. split; [exact (wit_words u)|]. split; [exact W1|]. split.
  - split; [exact (append_stopped_start u _ _ _ _ wit_full [wit_docs] dk _ Hi wit_fit)|].
    destruct (query_exact u wit_config 1 10 2 sorted wit_full Hs [wit_docs] dk wit_wss Hi wit_fit (wit_words u)) as (ix & Eo & Q).
    exists ix. split; [rewrite (Op _ _ Hi wit_fit); exact Eo|]. intros grow fuel Lf. destruct (Q grow wit_blot1 fuel Lf) as (ds & E & K).
    exists ds. split; [exact E|]. rewrite Eb, wit_carriers, N.eqb_refl in K. exact K.
  - destruct (append_stopped_end u wit_config 1 10 2 wit_full [wit_docs] dk [wit_doc "6" wit_text1] Hi Fit ltac:(reflexivity)) as (dk' & Hi' & Ap).
    assert (Ea : all_docs [[wit_doc "6" wit_text1]; wit_docs] = wit_docs ++ [wit_doc "6" wit_text1]) by reflexivity.
    assert (Fit' : docs_fit (all_docs [[wit_doc "6" wit_text1]; wit_docs])) by exact Fit.
    assert (Ww : words_of (word_char u) (all_docs [[wit_doc "6" wit_text1]; wit_docs]) (wit_wss ++ [wit_words1])) by (rewrite Ea; apply Forall2_app; [exact (wit_words u)|exact W1]).
    destruct (query_exact u wit_config 1 10 2 sorted wit_full Hs _ dk' _ Hi' Fit' Ww) as (ix & Eo & Q).
    exists (files_of dk'). split; [exact Ap|]. exists ix. split; [rewrite (Op _ _ Hi' Fit'); exact Eo|].
    intros grow fuel Lf. destruct (Q grow wit_blot1 fuel Lf) as (ds & E & K). exists ds. split; [exact E|]. rewrite Eb in K. rewrite K, Ea. reflexivity.
Qed.
