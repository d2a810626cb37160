(** C100: appending again after a Close that failed in the middle of a document record. *)
From Coq Require Import String.
From Verif Require Import Model.Base Model.Utf8 Model.Token Model.Blotter Model.Post Model.Poster Model.Shatter Model.Shard Model.Dmd Model.Fnames Model.Conc Model.Config Model.Json Model.Run Model.Index Model.Query Model.Session Model.Crash Model.CloseFault.
From Verif Require Import Spec.Text Spec.Fingerprint Spec.Configs Spec.Paths Spec.Reading Spec.Querying Spec.History Spec.Str.
From Verif Require Import Proof.Tactics Proof.TokenP Proof.BlotterP Proof.PosterP Proof.ShardP Proof.QueryP Proof.QueryW Proof.SessionP Proof.SessionP2 Proof.CrashP3 Proof.MisalignedP.
From Coq Require Import Lia.
Local Open Scope N_scope.
Local Open Scope list_scope.

Lemma torn_query u c k m n : cfg_full c k m n -> (0 < cf_numshatters c)%Z ->
  forall ss dk p q wss wp wq, history u c ss dk -> docs_fit (all_docs ss ++ [p; q]) ->
  words_of (word_char u) (all_docs ss) wss -> words_of (word_char u) [p] [wp] -> words_of (word_char u) [q] [wq] ->
  exists o dk1, closed_session u (open_indexer dk) (files_of dk) [p] o (repeat [] n) (files_of dk1) false /\ k_cfg dk1 = Some c /\
    (exists dk2, session u (open_indexer dk1) [q] dk2) /\
    forall dk2, session u (open_indexer dk1) [q] dk2 -> forall sorted, sorts sorted ->
    exists ix e, open_index sorted dk2 = Ok ix /\ forall grow fuel blot, (S (List.length (all_docs ss)) < fuel)%nat ->
      exists ds, query_get grow ix fuel blot None = Ok ds /\
        docs_keys ds = map (place_of (all_docs ss)) (carriers (word_hash u) k m n 0 wss (blot mod (N.of_nat n * 65536))) ++
          (if has_blot (word_hash u) k m n wq (blot mod (N.of_nat n * 65536)) then [(show_abs (spec_abs (fst p) (d_path (snd p))), d_start (snd p), e)] else []).
Proof.
  intros F Hsh ss dk p q wss wp wq Hi Fit W0 Wp Wq.
  destruct (append_misaligned u c k m n F ss dk p q wss wp wq Hi Fit Hsh W0 Wp Wq) as (o & dk1 & C & Ec & Ex & X).
  exists o, dk1. split; [exact C|]. split; [exact Ec|]. split; [exact Ex|]. intros dk2 Sn sorted Hs. destruct (X dk2 Sn sorted Hs) as (ix & e & Eo & I).
  exists ix, e. split; [exact Eo|]. intros grow fuel blot Lf. pose proof (io_pos _ _ _ _ I) as Hn0. pose proof (words_of_len _ _ _ W0) as Lw.
  destruct (get_unlimited grow ix _ n _ I blot fuel) as (ds & Eg & _ & El).
  { unfold held. pose proof (carriers_len (word_hash u) k m n (N.of_nat (QueryP.slot_of n blot) * N.of_nat n + N.of_nat (QueryP.shard_of n blot)) (wss ++ [wq]) 0) as L.
    rewrite app_length in L. cbn [List.length] in L. lia. }
  exists ds. split; [exact Eg|]. unfold docs_keys. rewrite El, map_map. unfold held. rewrite blot_slot by exact Hn0. set (b := blot mod (N.of_nat n * 65536)).
  rewrite carriers_app, map_app, N.add_0_l. cbn [carriers]. rewrite app_nil_r. f_equal.
  - apply map_ext_in. intros d Hd. apply SessionP.carriers_in in Hd. unfold misplaced. destruct (N.eqb_spec d (nlen (all_docs ss) + 1)); [unfold nlen in *; lia|].
    destruct (place_of (all_docs ss) d) as [[a s] t]. reflexivity.
  - assert (nlen wss = nlen (all_docs ss)) as -> by (unfold nlen; congruence). destruct (has_blot _ _ _ _ wq b); [|reflexivity]. cbn [map]. unfold misplaced. rewrite N.eqb_refl. reflexivity.
Qed.

(** Take any index, and a session that appends a document [p]: some write of Close to the
    document records fails after 8 of its 12 bytes (a full disk), and Close reports it. The
    index still opens for appending, and a session that then appends a document [q] ends
    well. From then on, queries for the blots of [q] tell the path and the start of [p],
    which is not in the posting files at all, where they should tell those of [q]. *)
Theorem C100_misaligned_refuted : forall u c k m n, cfg_full c k m n -> (0 < cf_numshatters c)%Z ->
  forall ss dk p q wss wp wq blot, history u c ss dk -> docs_fit (all_docs ss ++ [p; q]) ->
  let b := blot mod (N.of_nat n * 65536) in
  words_of (word_char u) (all_docs ss) wss -> words_of (word_char u) [p] [wp] -> words_of (word_char u) [q] [wq] ->
  has_blot (word_hash u) k m n wq b = true ->
  exists o dk1, closed_session u (open_indexer dk) (files_of dk) [p] o (repeat [] n) (files_of dk1) false /\ k_cfg dk1 = Some c /\
    (exists dk2, session u (open_indexer dk1) [q] dk2) /\
    forall dk2, session u (open_indexer dk1) [q] dk2 -> forall sorted, sorts sorted ->
    exists ix e, open_index sorted dk2 = Ok ix /\ forall grow fuel, (S (List.length (all_docs ss)) < fuel)%nat ->
      exists ds, query_get grow ix fuel blot None = Ok ds /\
        docs_keys ds = map (place_of (all_docs ss)) (carriers (word_hash u) k m n 0 wss b) ++ [(show_abs (spec_abs (fst p) (d_path (snd p))), d_start (snd p), e)].
Proof.
  intros u c k m n F Hsh ss dk p q wss wp wq blot Hi Fit b W0 Wp Wq B.
  destruct (torn_query u c k m n F Hsh ss dk p q wss wp wq Hi Fit W0 Wp Wq) as (o & dk1 & C & Ec & Ex & X).
  exists o, dk1. split; [exact C|]. split; [exact Ec|]. split; [exact Ex|]. intros dk2 Sn sorted Hs. destruct (X dk2 Sn sorted Hs) as (ix & e & Eo & Q).
  exists ix, e. split; [exact Eo|]. intros grow fuel Lf. destruct (Q grow fuel blot Lf) as (ds & Eg & K). fold b in K. rewrite B in K. eauto.
Qed.
(** What holds after such a failure and a further session: queries for blots that the
    document appended last does not have tell the documents of the sessions before. (Said of
    one document in each of the two sessions, and of 8 bytes written.) *)
Theorem C100_older_partial : forall u c k m n, cfg_full c k m n -> (0 < cf_numshatters c)%Z ->
  forall ss dk p q wss wp wq, history u c ss dk -> docs_fit (all_docs ss ++ [p; q]) ->
  words_of (word_char u) (all_docs ss) wss -> words_of (word_char u) [p] [wp] -> words_of (word_char u) [q] [wq] ->
  exists o dk1, closed_session u (open_indexer dk) (files_of dk) [p] o (repeat [] n) (files_of dk1) false /\ k_cfg dk1 = Some c /\
    (exists dk2, session u (open_indexer dk1) [q] dk2) /\
    forall dk2, session u (open_indexer dk1) [q] dk2 -> forall sorted, sorts sorted ->
    exists ix, open_index sorted dk2 = Ok ix /\ forall grow fuel blot, (S (List.length (all_docs ss)) < fuel)%nat ->
      has_blot (word_hash u) k m n wq (blot mod (N.of_nat n * 65536)) = false ->
      exists ds, query_get grow ix fuel blot None = Ok ds /\
        docs_keys ds = map (place_of (all_docs ss)) (carriers (word_hash u) k m n 0 wss (blot mod (N.of_nat n * 65536))).
Proof.
  intros u c k m n F Hsh ss dk p q wss wp wq Hi Fit W0 Wp Wq.
  destruct (torn_query u c k m n F Hsh ss dk p q wss wp wq Hi Fit W0 Wp Wq) as (o & dk1 & C & Ec & Ex & X).
  exists o, dk1. split; [exact C|]. split; [exact Ec|]. split; [exact Ex|]. intros dk2 Sn sorted Hs. destruct (X dk2 Sn sorted Hs) as (ix & e & Eo & Q).
  exists ix. split; [exact Eo|]. intros grow fuel blot Lf B. destruct (Q grow fuel blot Lf) as (ds & Eg & K). rewrite B, app_nil_r in K. eauto.
Qed.

(** Five documents, the last two of one text. A sixth, of another text, is appended and Close
    fails; then a seventh of the first text. The query for that text tells documents 4 and 5
    and the path of the sixth. *)
Example C100_example u sorted : sorts sorted -> exists dk o dk1 dk2 ix e, history u wit_config [wit_docs] dk /\
  closed_session u (open_indexer dk) (files_of dk) [wit_doc "6" wit_text1] o (repeat [] 2) (files_of dk1) false /\
  session u (open_indexer dk1) [wit_doc "7" wit_text2] dk2 /\
  open_index sorted dk2 = Ok ix /\ forall grow fuel, (6 < fuel)%nat -> exists ds, query_get grow ix fuel wit_blot2 None = Ok ds /\
    docs_keys ds = map (place_of wit_docs) [4; 5] ++ [(bs "/6", 0, e)].
Proof.
  intros Hs. destruct wit_full as [O Hn Hfl] eqn:EF.
  destruct (history_exists u wit_config 1 10 2 O Hn Hfl [wit_docs]) as [dk Hi]; [discriminate|reflexivity|exact wit_fit|].
  assert (Fit : docs_fit (all_docs [wit_docs] ++ [wit_doc "6" wit_text1; wit_doc "7" wit_text2])).
  { constructor; [|vm_compute; reflexivity|vm_compute; reflexivity].
    rewrite all_docs_one. apply Forall_app. split; [apply wit_fit|]. repeat (constructor; [split; [exists []; reflexivity|split; vm_compute; reflexivity]|]). constructor. }
  assert (Eb : wit_blot2 mod (N.of_nat 2 * 65536) = wit_blot2) by (vm_compute; reflexivity).
  assert (W : forall a b, words_of (word_char u) [wit_doc a wit_text1] [wit_words1] /\ words_of (word_char u) [wit_doc b wit_text2] [wit_words2]).
  { intros a b. pose proof (wit_words u) as W. unfold wit_docs, wit_wss in W. inversion W as [|? ? ? ? A1 W']; subst. inversion W' as [|? ? ? ? _ W'']; subst. inversion W'' as [|? ? ? ? _ W3]; subst.
    inversion W3 as [|? ? ? ? A4 _]; subst. split; repeat (constructor; [first [exact A4|exact A1]|]); constructor. }
  destruct (C100_misaligned_refuted u wit_config 1 10 2 wit_full ltac:(reflexivity) [wit_docs] dk (wit_doc "6" wit_text1) (wit_doc "7" wit_text2) wit_wss wit_words1 wit_words2 wit_blot2 Hi Fit
    (wit_words u) (proj1 (W _ "x"%string)) (proj2 (W "x"%string _))) as (o & dk1 & C & _ & (dk2 & Sn) & X).
  { rewrite Eb, wit_has2. apply N.eqb_refl. }
  destruct (X dk2 Sn sorted Hs) as (ix & e & Eo & Q). exists dk, o, dk1, dk2, ix, e. split; [exact Hi|]. split; [exact C|]. split; [exact Sn|]. split; [exact Eo|].
  intros grow fuel Lf. destruct (Q grow fuel Lf) as (ds & E & K). exists ds. split; [exact E|]. rewrite Eb in K. rewrite wit_carriers in K. change (wit_blot1 =? wit_blot2) with false in K. rewrite N.eqb_refl in K.
  exact K.
Qed.

Print Assumptions C100_misaligned_refuted.
Print Assumptions C100_older_partial.
