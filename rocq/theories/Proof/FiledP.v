(** BlotDoc and the sessions agree. *)
From Coq Require Import Sorted.
From Verif Require Import Model.Base Model.Utf8 Model.Token Model.Blotter Model.Shatter Model.Conc Model.Config Model.Run Model.Index Model.Query Model.Session Model.Crash.
From Verif Require Import Spec.Text Spec.Fingerprint Spec.Configs Spec.Paths Spec.Reading Spec.Querying Spec.History Spec.Live.
From Verif Require Import Proof.Tactics Proof.BlotterP Proof.ShatterP Proof.IndexP Proof.SessionP Proof.SessionP2 Proof.IndexP2 Proof.LikeP3 Proof.LiveP.
Local Open Scope N_scope.

Lemma carriers_has H k m n q : forall wss last i ws, nth_error wss i = Some ws -> has_blot H k m n ws q = true ->
  In (last + 1 + N.of_nat i) (carriers H k m n last wss q).
Proof.
  induction wss as [|w wss IH]; intros last [|i] ws E Hb; cbn [nth_error] in E; try discriminate; cbn [carriers]; apply in_or_app.
  - injection E as ->. rewrite Hb. left. left. lia.
  - right. replace (last + 1 + N.of_nat (S i)) with (last + 1 + 1 + N.of_nat i) by lia. eapply IH; eauto.
Qed.
Lemma carriers_above H k m n q : forall wss last, Forall (fun d => last < d) (carriers H k m n last wss q).
Proof.
  induction wss as [|w wss IH]; intros last; cbn [carriers]; [constructor|]. apply Forall_app. split.
  - destruct (has_blot H k m n w q); repeat constructor. lia.
  - eapply Forall_impl; [|apply IH]. cbn. intros; lia.
Qed.
Lemma carriers_order H k m n q : forall wss last, StronglySorted N.lt (carriers H k m n last wss q).
Proof.
  induction wss as [|w wss IH]; intros last; cbn [carriers]; [constructor|]. destruct (has_blot H k m n w q); cbn [app]; [|apply IH].
  constructor; [apply IH|]. eapply Forall_impl; [|apply carriers_above]. cbn. intros; lia.
Qed.

Theorem filed u c k m n sorted (F : cfg_full c k m n) (Hs : sorts sorted) ss dk :
  history u c ss dk -> docs_fit (all_docs ss) ->
  exists ix, open_index sorted dk = Ok ix /\ forall grow q fuel, (length (all_docs ss) < fuel)%nat ->
  exists ds ids, query_get grow ix fuel q None = Ok ds /\ docs_keys ds = map (place_of (all_docs ss)) ids /\ StronglySorted N.lt ids /\
    forall d, In d ids <-> 0 < d /\ exists cwd x blots b, doc_at (all_docs ss) d (cwd, x) /\ blot_doc u c [] x = Ok blots /\ In b blots /\
      b mod (N.of_nat n * 65536) = q mod (N.of_nat n * 65536).
Proof.
  intros Hi Fit. destruct (words_total u (all_docs ss)) as [wss Ww].
  destruct (query_exact u c k m n sorted F Hs ss dk wss Hi Fit Ww) as (ix & Eo & Q). exists ix. split; [exact Eo|]. intros grow q fuel Lf.
  destruct (Q grow q fuel Lf) as (ds & E & K). exists ds. eexists. split; [exact E|]. split; [exact K|]. split; [apply carriers_order|].
  clear E K Q. set (r := q mod (N.of_nat n * 65536)). intros d. split.
  - intros Hd. apply carriers_in in Hd. destruct Hd as (i & ws & -> & Ei & Hb). split; [lia|].
    destruct (nth_Forall2' _ _ _ Ww i ws Ei) as ([cwd x] & Ex & Dw). cbn [snd] in Dw.
    unfold has_blot in Hb. apply existsb_exists in Hb. destruct Hb as (b & Hin & Eb). apply N.eqb_eq in Eb.
    exists cwd, x, (spec_blots (word_hash u) k m ws), b. split.
    { unfold doc_at. replace (N.to_nat (0 + 1 + N.of_nat i - 1)) with i by lia. exact Ex. }
    split; [exact (blot_doc_spec u c k m n [] x ws (cu_ok _ _ _ _ F) Dw)|]. auto.
  - intros (Hd & cwd & x & blots & b & Ex & Eb & Hin & Er). unfold doc_at in Ex.
    destruct (nth_Forall2 _ _ _ Ww _ _ Ex) as (ws & Ew & Dw). cbn [snd] in Dw.
    rewrite (blot_doc_spec u c k m n [] x ws (cu_ok _ _ _ _ F) Dw) in Eb. injection Eb as <-.
    replace d with (0 + 1 + N.of_nat (N.to_nat (d - 1))) by lia. eapply carriers_has; [exact Ew|].
    unfold has_blot. apply existsb_exists. exists b. split; [exact Hin|]. apply N.eqb_eq. exact Er.
Qed.
