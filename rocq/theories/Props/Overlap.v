(** C62: two sessions appending to an index at a time (the lock does not keep them apart,
    C34). *)
From Coq Require Import String.
From Verif Require Import Model.Base Model.Path Model.Utf8 Model.Token Model.Blotter Model.Dmd Model.Config Model.Run Model.Index Model.Query Model.Session Model.Overlap.
From Verif Require Import Spec.Text Spec.Configs Spec.Paths Spec.Querying Spec.History Spec.Str.
From Verif Require Import Proof.Tactics Proof.PathP Proof.TokenP Proof.BlotterP Proof.SessionP Proof.SessionP2 Proof.OptionsP Proof.OverlapP.
Local Open Scope N_scope.
Local Open Scope list_scope.

(** Whatever the index holds, both can do their work, but then no query shows a document of
    the one that closes first (unless the other or the index has its path too, or one
    below). *)
Theorem C62_lost_refuted : forall u c k m n, cfg_full c k m n -> (0 < cf_numshatters c)%Z ->
  forall ss dk docs1 docs2, history u c ss dk -> docs_fit (all_docs ss ++ docs1) -> docs_fit (all_docs ss ++ docs2) ->
  (exists dk2, overlap u dk docs1 docs2 dk2) /\
  forall dk2 sorted ix cwd d, overlap u dk docs1 docs2 dk2 -> open_index sorted dk2 = Ok ix ->
    In (cwd, d) docs1 -> spec_abs cwd (d_path d) <> [] ->
    (forall cwd' d' below, In (cwd', d') (all_docs ss ++ docs2) -> spec_abs cwd' (d_path d') <> spec_abs cwd (d_path d) ++ below) ->
    (forall did s e, docid2doc ix did <> Ok (show_abs (spec_abs cwd (d_path d)), s, e)) /\
    forall grow fuel blot ds s e, query_get grow ix fuel blot None = Ok ds -> ~ In (show_abs (spec_abs cwd (d_path d)), s, e) (docs_keys ds).
Proof.
  intros u c k m n F Hs ss dk docs1 docs2 Hi F1 F2. split; [exact (overlap_exists u c k m n F ss dk docs1 docs2 Hi F1 F2 Hs)|].
  intros dk2 sorted ix cwd d Ov Eo Hd Ne X.
  assert (G : forall did s e, docid2doc ix did <> Ok (show_abs (spec_abs cwd (d_path d)), s, e)).
  { intros did s e E. destruct (overlap_paths u c k m n F ss dk docs1 docs2 dk2 sorted ix Hi F1 F2 Ov Eo did _ _ _ E) as (q & Cq & Eq & K).
    apply show_inj in Eq; [|apply spec_abs_ok|exact Cq]. destruct K as [->|([cwd' d'] & suf & Hp & Es)]; [contradiction|].
    apply (X cwd' d' suf Hp). rewrite Eq. exact Es. }
  split; [exact G|]. intros grow fuel blot ds s e Eq Hk. destruct (query_from _ _ _ _ _ Eq _ Hk) as [did E]. exact (G did s e E).
Qed.
(** And they give the same numbers to their documents; under these numbers, the index has
    the places of the first session's documents, for those of the other too. *)
Theorem C62_same_numbers_refuted : forall u c k m n, cfg_full c k m n ->
  forall ss dk docs1 docs2 x ws dk1 dk2, history u c ss dk -> docs_fit (all_docs ss ++ docs1) -> docs_fit (all_docs ss ++ docs2) ->
  open_indexer dk = Ok (x, ws) -> session u (Ok (x, ws)) docs1 dk1 -> session u (Ok (behind x dk1, ws)) docs2 dk2 ->
  (exists r1 r2 ids1 ids2, doc_ids (x_fnames x) (x_dmds x) docs1 = Ok (r1, ids1) /\ doc_ids (x_fnames x) (x_dmds (behind x dk1)) docs2 = Ok (r2, ids2) /\
     forall i, (i < List.length docs1)%nat -> (i < List.length docs2)%nat -> nth_error ids1 i = nth_error ids2 i /\ nth_error ids2 i = Some (nlen (all_docs ss) + 1 + N.of_nat i)) /\
  forall sorted ix i d1 path s e, open_index sorted dk2 = Ok ix -> nth_error docs1 i = Some d1 ->
    docid2doc ix (nlen (all_docs ss) + 1 + N.of_nat i) = Ok (path, s, e) -> s = d_start (snd d1) /\ e = d_end (snd d1).
Proof.
  intros u c k m n F ss dk docs1 docs2 x ws dk1 dk2 Hi F1 F2 Eo S1 S2. split.
  - destruct (overlap_ids u c k m n F ss dk docs1 docs2 x ws dk1 Hi F1 F2 Eo S1) as (r1 & r2 & A & B & _).
    exists r1, r2. eexists. eexists. split; [exact A|]. split; [exact B|]. intros i L1 L2.
    assert (G : forall l, (i < l)%nat -> nth_error (map N.of_nat (seq (S (List.length (all_docs ss))) l)) i = Some (nlen (all_docs ss) + 1 + N.of_nat i)).
    { intros l Li. rewrite nth_error_map, (nth_error_nth' _ 0%nat) by (rewrite seq_length; exact Li). rewrite seq_nth by exact Li. cbn [option_map]. f_equal. unfold nlen. lia. }
    rewrite !G by assumption. auto.
  - intros sorted ix i d1 path s e Ex Ei E.
    apply (overlap_places u c k m n F ss dk docs1 docs2 dk2 sorted ix Hi F1 F2 (Overlap u dk docs1 docs2 x ws dk1 dk2 Eo S1 S2) Ex (List.length (all_docs ss) + i)%nat d1 path s e).
    + rewrite nth_error_app2 by lia. replace (_ + i - _)%nat with i by lia. exact Ei.
    + rewrite <- E. f_equal. unfold nlen. lia.
Qed.
(** One after the other, nothing is lost. *)
Theorem C62_serial_partial : forall u c k m n sorted, cfg_full c k m n -> sorts sorted ->
  forall ss dk docs1 docs2 dk1 dk2 wss, history u c ss dk -> docs_fit (all_docs ss ++ docs1 ++ docs2) ->
  session u (open_indexer dk) docs1 dk1 -> session u (open_indexer dk1) docs2 dk2 -> words_of (word_char u) (all_docs ss ++ docs1 ++ docs2) wss ->
  exists ix, open_index sorted dk2 = Ok ix /\ forall grow blot fuel, (List.length (all_docs ss ++ docs1 ++ docs2) < fuel)%nat ->
    exists ds, query_get grow ix fuel blot None = Ok ds /\
      docs_keys ds = map (place_of (all_docs ss ++ docs1 ++ docs2)) (carriers (word_hash u) k m n 0 wss (blot mod (N.of_nat n * 65536))).
Proof.
  intros u c k m n sorted F So ss dk docs1 docs2 dk1 dk2 wss Hi Fit S1 S2 W.
  assert (E : all_docs (docs2 :: docs1 :: ss) = all_docs ss ++ docs1 ++ docs2) by (rewrite !all_docs_cons, app_assoc; reflexivity).
  rewrite <- E in *. apply (query_exact u c k m n sorted F So (docs2 :: docs1 :: ss) dk2 wss); auto.
  econstructor; [econstructor; [exact Hi|exact S1]|exact S2].
Qed.
Print Assumptions C62_lost_refuted.
Print Assumptions C62_same_numbers_refuted.
Print Assumptions C62_serial_partial.

(** The hypotheses: an index with a document, and two that are added at a time. *)
Definition ex_doc (p : string) : bytes * doc := (bs "/", MkDoc (bs p) 0 23 (bs "a b c d e f g h i j k l")).
Example C62_example u : exists c, default_config (bs "/") (bs "x") = Ok c /\ cfg_full c 1 10 2 /\ (0 < cf_numshatters c)%Z /\
  (exists dk, history u c [[ex_doc "a"]] dk) /\ docs_fit (all_docs [[ex_doc "a"]] ++ [ex_doc "b"]) /\ docs_fit (all_docs [[ex_doc "a"]] ++ [ex_doc "c"]) /\
  spec_abs (bs "/") (bs "b") <> [] /\
  forall cwd' d' below, In (cwd', d') (all_docs [[ex_doc "a"]] ++ [ex_doc "c"]) -> spec_abs cwd' (d_path d') <> spec_abs (bs "/") (bs "b") ++ below.
Proof.
  eexists. split; [reflexivity|]. pose proof (opts_full (bs "/") (bs "x") 2 2 ltac:(lia) eq_refl) as F. split; [exact F|]. split; [reflexivity|].
  assert (Fit : forall p q, path_room [ex_doc p; ex_doc q] < 4294967295 -> docs_fit [ex_doc p; ex_doc q]).
  { intros p q L. constructor; [|reflexivity|exact L].
    repeat constructor; cbn [fst snd ex_doc]; (eexists; reflexivity) || reflexivity. }
  split; [|split; [apply Fit; reflexivity|split; [apply Fit; reflexivity|split; [discriminate|]]]].
  - destruct F as [A B C]. apply (history_exists u _ 1 10 2 A B C); [discriminate|reflexivity|]. eapply fit_app. apply (Fit "a"%string "b"%string); reflexivity.
  - intros cwd' d' below [E|[E|[]]]; injection E as <- <-; discriminate.
Qed.
