(** C99: appending again after an append session was stopped. *)
From Coq Require Import String.
From Verif Require Import Model.Base Model.Utf8 Model.Token Model.Blotter Model.Post Model.Poster Model.Shatter Model.Shard Model.Dmd Model.Fnames Model.Conc Model.Config Model.Json Model.Run Model.Index Model.Query Model.Session Model.Crash.
From Verif Require Import Spec.Text Spec.Fingerprint Spec.Configs Spec.Paths Spec.Reading Spec.Querying Spec.History Spec.Str.
From Verif Require Import Proof.Tactics Proof.TokenP Proof.BlotterP Proof.PosterP Proof.ShardP Proof.QueryP Proof.QueryW Proof.SessionP Proof.SessionP2 Proof.CrashP3 Proof.StaleP2.
From Coq Require Import Lia.
Local Open Scope N_scope.
Local Open Scope list_scope.

Lemma last_two (l : list N) a : List.last (l ++ [a]) 0 = a.
Proof. induction l as [|x l IH]; [reflexivity|]. cbn [app]. destruct (l ++ [a]) eqn:E; [apply app_eq_nil in E; destruct E; discriminate|exact IH]. Qed.
Section Same.
  Variables (u : unicode) (k m n : nat) (wss : list (list bytes)) (ws : list bytes) (q : N).
  Let carr last w := carriers (word_hash u) k m n last w q.
  Hypothesis B : has_blot (word_hash u) k m n ws q = true.
  Lemma same_carr : carr 0 (wss ++ [ws]) = carr 0 wss ++ [nlen (wss ++ [ws])].
  Proof.
    unfold carr. rewrite carriers_app. cbn [carriers]. rewrite B. cbn [app]. do 2 f_equal. unfold nlen. rewrite app_length. cbn [List.length]. lia.
  Qed.
  Lemma same_shifted w2 : nlen (wss ++ [ws]) + 1 < 4294967296 ->
    shifted u k m n (wss ++ [ws]) [ws] w2 q = carr 0 (wss ++ [ws]) ++ [nlen (wss ++ [ws]) + 1] ++ map (fun v => add32 v 1) (carr (nlen (wss ++ [ws]) + 1) w2).
  Proof.
    intros L. assert (K : kept u k m n (wss ++ [ws]) [ws] q = carriers (word_hash u) k m n 0 ((wss ++ [ws]) ++ [ws]) q).
    { unfold kept. fold (carr 0 (wss ++ [ws])). rewrite same_carr. destruct (carr 0 wss); reflexivity. }
    unfold shifted. rewrite K. rewrite (carriers_app _ _ _ _ q (wss ++ [ws]) 0 [ws]). cbn [carriers]. rewrite B. cbn [app]. rewrite N.add_0_l, last_two. fold (carr 0 (wss ++ [ws])).
    replace (List.last (carr 0 (wss ++ [ws])) 0) with (nlen (wss ++ [ws])) by (rewrite same_carr, last_two; reflexivity).
    assert (E : nlen ((wss ++ [ws]) ++ [ws]) = nlen (wss ++ [ws]) + 1) by (unfold nlen; rewrite app_length; cbn [List.length]; lia). rewrite E.
    assert (D : sub32 (nlen (wss ++ [ws]) + 1) (nlen (wss ++ [ws])) = 1) by (unfold sub32, u32; lia). rewrite D. rewrite <- app_assoc. reflexivity.
  Qed.
End Same.
(** Take any index whose last document has words [ws] with a given blot. A session that
    appends a document with the same words is stopped in Close, when the posting files have
    been written and the tables have not. The index still opens for appending; a session
    that appends a further such document and then one without the blot ends well. From then
    on, a query for the blot tells the last document, which does not have it, in place of
    the one before it, which does. *)
Theorem C99_wrong_document_refuted : forall u c k m n, cfg_full c k m n -> (0 < cf_numshatters c)%Z ->
  forall ss dk wss ws p1 p2 p3 w3 blot, history u c ss dk ->
  let docs := all_docs ss ++ [p1] ++ [p2; p3] in
  let b := blot mod (N.of_nat n * 65536) in
  let last := nlen (all_docs ss) in
  docs_fit docs -> words_of (word_char u) (all_docs ss) (wss ++ [ws]) ->
  words_of (word_char u) [p1] [ws] -> words_of (word_char u) [p2; p3] [ws; w3] ->
  has_blot (word_hash u) k m n ws b = true -> has_blot (word_hash u) k m n w3 b = false ->
  exists dk1, k_cfg dk1 = Some c /\ append_stopped u dk [p1] (files_of dk1) /\
    (exists dk2, session u (open_indexer dk1) [p2; p3] dk2) /\
    forall dk2, session u (open_indexer dk1) [p2; p3] dk2 -> forall sorted, sorts sorted ->
    exists ix, open_index sorted dk2 = Ok ix /\ forall grow fuel, (List.length docs < fuel)%nat ->
      carriers (word_hash u) k m n 0 ((wss ++ [ws]) ++ [ws] ++ [ws; w3]) b = carriers (word_hash u) k m n 0 (wss ++ [ws]) b ++ [last + 1; last + 2] /\
      exists ds, query_get grow ix fuel blot None = Ok ds /\
        docs_keys ds = map (place_of docs) (carriers (word_hash u) k m n 0 (wss ++ [ws]) b ++ [last + 1; last + 3]).
Proof.
  intros u c k m n F Hsh ss dk wss ws p1 p2 p3 w3 blot Hi docs b lst Fit W0 W1 W2 B1 B3.
  destruct (append_stale u c k m n F ss dk [p1] [p2; p3] (wss ++ [ws]) [ws] [ws; w3] Hi Fit Hsh W0 W1 W2) as (dk1 & Ec & St & Ex & X).
  exists dk1. split; [exact Ec|]. split; [exact St|]. split; [exact Ex|]. intros dk2 Sn sorted Hs. destruct (X dk2 Sn sorted Hs) as (ix & Eo & Q). exists ix. split; [exact Eo|].
  intros grow fuel Lf. destruct (Q grow fuel blot Lf) as [Q1 _]. clear Q. fold b docs in Q1. cbv zeta in Q1.
  pose proof (words_of_len _ _ _ W0) as Lw. pose proof (df_len _ Fit) as Ld. change (2 ^ 32) with 4294967296 in Ld.
  assert (El : nlen (wss ++ [ws]) = lst) by (unfold lst, nlen; congruence).
  assert (Ln : nlen docs = lst + 3) by (unfold docs, lst, nlen; rewrite !app_length; cbn [List.length]; lia). rewrite Ln in *.
  rewrite (same_shifted u k m n wss ws b B1 [ws; w3]) in Q1 by lia. rewrite El in Q1. cbn [carriers] in Q1. rewrite B1, B3 in Q1. cbn [app map] in Q1.
  assert (Ea : add32 (lst + 1 + 1) 1 = lst + 3) by (unfold add32, u32; lia). rewrite Ea in Q1. split.
  - rewrite carriers_app. cbn [app carriers]. rewrite B1, B3, N.add_0_l, El. cbn [app]. replace (lst + 1 + 1) with (lst + 2) by lia. reflexivity.
  - apply Q1. apply Forall_app. split; [|repeat constructor; lia]. apply Forall_forall. intros d Hd. apply SessionP.carriers_in in Hd. rewrite El in Hd. lia.
Qed.
(** And if the second such document is the last one, the query ends with an error. *)
Theorem C99_query_fails_refuted : forall u c k m n, cfg_full c k m n -> (0 < cf_numshatters c)%Z ->
  forall ss dk wss ws p1 p2 blot, history u c ss dk ->
  let docs := all_docs ss ++ [p1] ++ [p2] in
  docs_fit docs -> words_of (word_char u) (all_docs ss) (wss ++ [ws]) ->
  words_of (word_char u) [p1] [ws] -> words_of (word_char u) [p2] [ws] ->
  has_blot (word_hash u) k m n ws (blot mod (N.of_nat n * 65536)) = true ->
  exists dk1, k_cfg dk1 = Some c /\ append_stopped u dk [p1] (files_of dk1) /\
    (exists dk2, session u (open_indexer dk1) [p2] dk2) /\
    forall dk2, session u (open_indexer dk1) [p2] dk2 -> forall sorted, sorts sorted ->
    exists ix, open_index sorted dk2 = Ok ix /\ forall grow fuel, (List.length docs < fuel)%nat -> query_get grow ix fuel blot None = Err EOF.
Proof.
  intros u c k m n F Hsh ss dk wss ws p1 p2 blot Hi docs Fit W0 W1 W2 B1.
  destruct (append_stale u c k m n F ss dk [p1] [p2] (wss ++ [ws]) [ws] [ws] Hi Fit Hsh W0 W1 W2) as (dk1 & Ec & St & Ex & X).
  exists dk1. split; [exact Ec|]. split; [exact St|]. split; [exact Ex|]. intros dk2 Sn sorted Hs. destruct (X dk2 Sn sorted Hs) as (ix & Eo & Q). exists ix. split; [exact Eo|].
  intros grow fuel Lf. destruct (Q grow fuel blot Lf) as [_ Q1]. clear Q. cbv zeta in Q1.
  pose proof (words_of_len _ _ _ W0) as Lw. pose proof (df_len _ Fit) as Ld. change (2 ^ 32) with 4294967296 in Ld.
  set (lst := nlen (all_docs ss)). assert (El : nlen (wss ++ [ws]) = lst) by (unfold lst, nlen; congruence).
  assert (Ln : nlen docs = lst + 2) by (unfold docs, lst, nlen; rewrite !app_length; cbn [List.length]; lia). fold docs in Ld, Q1. rewrite Ln in *.
  rewrite (same_shifted u k m n wss ws _ B1 [ws]) in Q1 by lia. rewrite El in Q1. cbn [carriers] in Q1. rewrite B1 in Q1. cbn [app map] in Q1.
  assert (Ea : add32 (lst + 1 + 1) 1 = lst + 3) by (unfold add32, u32; lia). rewrite Ea in Q1. apply Q1.
  - apply Forall_app. split; [|repeat constructor; lia]. apply Forall_forall. intros d Hd. apply SessionP.carriers_in in Hd. lia.
  - intros Fo. apply Forall_app in Fo. destruct Fo as [_ Fo]. inversion Fo as [|? ? _ Fo2]; subst. inversion Fo2 as [|? ? Y _]; subst. lia.
Qed.
(** What does hold after such a stop and a further session: blots that no document of the
    stopped session has give the right answers; for blots that no document had before it,
    queries tell the documents of the further session that have them, and leave out those
    of the stopped one. (This is about a stop when all posting files are written and no
    table is; nothing is said of stops at other points.) *)
Theorem C99_other_blots_partial : forall u c k m n, cfg_full c k m n -> (0 < cf_numshatters c)%Z ->
  forall ss dk docs1 docs2 wss w1 w2, history u c ss dk ->
  let docs := all_docs ss ++ docs1 ++ docs2 in
  docs_fit docs -> words_of (word_char u) (all_docs ss) wss -> words_of (word_char u) docs1 w1 -> words_of (word_char u) docs2 w2 ->
  exists dk1, k_cfg dk1 = Some c /\ append_stopped u dk docs1 (files_of dk1) /\
    (exists dk2, session u (open_indexer dk1) docs2 dk2) /\
    forall dk2, session u (open_indexer dk1) docs2 dk2 -> forall sorted, sorts sorted ->
    exists ix, open_index sorted dk2 = Ok ix /\ forall grow fuel blot, (List.length docs < fuel)%nat ->
      let b := blot mod (N.of_nat n * 65536) in
      (carriers (word_hash u) k m n (nlen wss) w1 b = [] ->
       exists ds, query_get grow ix fuel blot None = Ok ds /\ docs_keys ds = map (place_of docs) (carriers (word_hash u) k m n 0 (wss ++ w1 ++ w2) b)) /\
      (carriers (word_hash u) k m n 0 wss b = [] ->
       exists ds, query_get grow ix fuel blot None = Ok ds /\ docs_keys ds = map (place_of docs) (carriers (word_hash u) k m n (nlen (wss ++ w1)) w2 b)).
Proof.
  intros u c k m n F Hsh ss dk docs1 docs2 wss w1 w2 Hi docs Fit W0 W1 W2.
  destruct (append_stale u c k m n F ss dk docs1 docs2 wss w1 w2 Hi Fit Hsh W0 W1 W2) as (dk1 & Ec & St & Ex & X).
  exists dk1. split; [exact Ec|]. split; [exact St|]. split; [exact Ex|]. intros dk2 Sn sorted Hs. destruct (X dk2 Sn sorted Hs) as (ix & Eo & Q). exists ix. split; [exact Eo|].
  intros grow fuel blot Lf b. destruct (Q grow fuel blot Lf) as [Q1 _]. clear Q. fold b docs in Q1. cbv zeta in Q1.
  pose proof (words_of_len _ _ _ W0) as Lw0. pose proof (words_of_len _ _ _ W1) as Lw1. pose proof (words_of_len _ _ _ W2) as Lw2. pose proof (df_len _ Fit) as Ld. change (2 ^ 32) with 4294967296 in Ld.
  assert (Z : forall l, l < 4294967296 -> map (fun v => add32 v (sub32 l l)) (carriers (word_hash u) k m n (nlen (wss ++ w1)) w2 b) = carriers (word_hash u) k m n (nlen (wss ++ w1)) w2 b).
  { intros l Ll. assert (sub32 l l = 0) as -> by (unfold sub32, u32; lia).
    transitivity (map (fun d => d) (carriers (word_hash u) k m n (nlen (wss ++ w1)) w2 b)); [apply map_ext_in|apply map_id]. intros d Hd. apply SessionP.carriers_in in Hd.
    unfold add32, u32, nlen in *. unfold docs in Ld. rewrite !app_length in *. lia. }
  assert (E : carriers (word_hash u) k m n (nlen wss) w1 b = [] \/ carriers (word_hash u) k m n 0 wss b = [] ->
    shifted u k m n wss w1 w2 b = carriers (word_hash u) k m n 0 wss b ++ carriers (word_hash u) k m n (nlen (wss ++ w1)) w2 b).
  { intros Hb. assert (K : kept u k m n wss w1 b = carriers (word_hash u) k m n 0 wss b).
    { unfold kept. rewrite carriers_app, N.add_0_l. destruct Hb as [Hb|Hb]; rewrite Hb; [rewrite app_nil_r; destruct (carriers _ _ _ _ 0 wss b); reflexivity|reflexivity]. }
    unfold shifted. rewrite K, Z; [reflexivity|]. pose proof (carr_last u c k m n F wss b) as L. unfold nlen in *. unfold docs in Ld. rewrite !app_length in Ld. lia. }
  assert (Fo : carriers (word_hash u) k m n (nlen wss) w1 b = [] \/ carriers (word_hash u) k m n 0 wss b = [] -> Forall (fun d => 1 <= d <= nlen docs) (shifted u k m n wss w1 w2 b)).
  { intros Hb. rewrite (E Hb). apply Forall_app. split; apply Forall_forall; intros d Hd; apply SessionP.carriers_in in Hd; unfold docs, nlen in *; rewrite !app_length in *; lia. }
  split; intros Hb.
  - specialize (Q1 (Fo (or_introl Hb))). rewrite (E (or_introl Hb)) in Q1. rewrite app_assoc, !carriers_app, N.add_0_l, Hb, app_nil_r. exact Q1.
  - specialize (Q1 (Fo (or_intror Hb))). rewrite (E (or_intror Hb)), Hb in Q1. exact Q1.
Qed.

(** Five documents, the last two of the same text; a sixth of that text is appended and the
    session stopped; then a seventh of that text and an eighth of another are appended. The
    query for the text tells documents 4, 5, 6 and 8. *)
Example C99_example u sorted : sorts sorted -> exists dk dk1 dk2 ix, history u wit_config [wit_docs] dk /\
  append_stopped u dk [wit_doc "6" wit_text2] (files_of dk1) /\ session u (open_indexer dk1) [wit_doc "7" wit_text2; wit_doc "8" wit_text1] dk2 /\
  open_index sorted dk2 = Ok ix /\ forall grow fuel, (8 < fuel)%nat -> exists ds, query_get grow ix fuel wit_blot2 None = Ok ds /\
    docs_keys ds = map (place_of (wit_docs ++ [wit_doc "6" wit_text2; wit_doc "7" wit_text2; wit_doc "8" wit_text1])) [4; 5; 6; 8] /\
    carriers (word_hash u) 1 10 2 0 (wit_wss ++ [wit_words2; wit_words2; wit_words1]) wit_blot2 = [4; 5; 6; 7].
Proof.
  intros Hs. destruct wit_full as [O Hn Hfl] eqn:EF.
  destruct (history_exists u wit_config 1 10 2 O Hn Hfl [wit_docs]) as [dk Hi]; [discriminate|reflexivity|exact wit_fit|].
  assert (Fit : docs_fit (all_docs [wit_docs] ++ [wit_doc "6" wit_text2] ++ [wit_doc "7" wit_text2; wit_doc "8" wit_text1])).
  { constructor; [|vm_compute; reflexivity|vm_compute; reflexivity].
    rewrite all_docs_one. apply Forall_app. split; [apply wit_fit|]. cbn [app]. repeat (constructor; [split; [exists []; reflexivity|split; vm_compute; reflexivity]|]). constructor. }
  assert (Eb : wit_blot2 mod (N.of_nat 2 * 65536) = wit_blot2) by (vm_compute; reflexivity).
  assert (W : forall a b, words_of (word_char u) [wit_doc a wit_text2] [wit_words2] /\ words_of (word_char u) [wit_doc a wit_text2; wit_doc b wit_text1] [wit_words2; wit_words1]).
  { intros a b. pose proof (wit_words u) as W. unfold wit_docs, wit_wss in W. inversion W as [|? ? ? ? A1 W']; subst. inversion W' as [|? ? ? ? _ W'']; subst. inversion W'' as [|? ? ? ? _ W3]; subst.
    inversion W3 as [|? ? ? ? A4 _]; subst. split; repeat (constructor; [first [exact A4|exact A1]|]); constructor. }
  destruct (C99_wrong_document_refuted u wit_config 1 10 2 wit_full ltac:(reflexivity) [wit_docs] dk [wit_words1; wit_words1; wit_words1; wit_words2] wit_words2
    (wit_doc "6" wit_text2) (wit_doc "7" wit_text2) (wit_doc "8" wit_text1) wit_words1 wit_blot2 Hi Fit (wit_words u) (proj1 (W _ "x"%string)) (proj2 (W _ _)))
    as (dk1 & _ & St & (dk2 & Sn) & X).
  { rewrite Eb, wit_has2. apply N.eqb_refl. }
  { rewrite Eb, wit_has1. reflexivity. }
  destruct (X dk2 Sn sorted Hs) as (ix & Eo & Q). exists dk, dk1, dk2, ix. split; [exact Hi|]. split; [exact St|]. split; [exact Sn|]. split; [exact Eo|].
  intros grow fuel Lf. destruct (Q grow fuel Lf) as (_ & ds & E & K). exists ds. split; [exact E|]. rewrite Eb in K.
  change ([wit_words1; wit_words1; wit_words1; wit_words2] ++ [wit_words2]) with wit_wss in K. rewrite wit_carriers in K. change (wit_blot1 =? wit_blot2) with false in K. rewrite N.eqb_refl in K.
  split; [exact K|]. rewrite carriers_app, wit_carriers. change (wit_blot1 =? wit_blot2) with false. rewrite N.eqb_refl. cbn [carriers]. rewrite !wit_has2, wit_has1, N.eqb_refl.
  change (wit_blot1 =? wit_blot2) with false. reflexivity.
Qed.

Print Assumptions C99_wrong_document_refuted.
Print Assumptions C99_query_fails_refuted.
Print Assumptions C99_other_blots_partial.
