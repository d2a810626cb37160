(** C17-C21: fingerprints. *)
From Coq Require Import String Permutation.
From Verif Require Import Model.Base Model.Utf8 Model.Token Model.Blotter Model.Post Model.Address Model.Config Model.Index Model.Shatter.
From Verif Require Import Spec.Text Spec.Fingerprint Spec.Fnv Spec.Configs Spec.Str.
From Verif Require Import Proof.Tactics Proof.Utf8P Proof.TokenP Proof.BlotterP Proof.ShatterP Proof.IndexP Proof.IndexP2 Proof.BlotsP.
Local Open Scope N_scope.
Local Open Scope list_scope.

Lemma fnv32_is_fnv1 s : fnv1 s (fnv32 s).
Proof.
  unfold fnv32. induction s as [|c s IH] using rev_ind; [constructor|]. rewrite fold_left_app. cbn [fold_left]. apply fnv1_more, IH.
Qed.
Lemma fnv1_fun s : forall h h', fnv1 s h -> fnv1 s h' -> h = h'.
Proof.
  induction s as [|c s IH] using rev_ind; intros h h' A B.
  - inversion A as [|s ? ? ? E]; [|destruct s; discriminate].
    inversion B as [|s' ? ? ? E']; [reflexivity|destruct s'; discriminate].
  - inversion A as [E|s1 h1 c1 A1 E]; [destruct s; discriminate|]. inversion B as [E'|s2 h2 c2 B2 E']; [destruct s; discriminate|].
    apply app_inj_tail in E, E'. destruct E as [-> ->], E' as [-> ->]. rewrite (IH _ _ A1 B2). reflexivity.
Qed.
(** [blot_all u b ws] feeds the words [ws] to blotter [b] and lists the blots returned. The
    hash of a word is FNV-1 of the word in lower case. *)
Theorem C17_blot_is_xor_of_recent_words : forall u k m H, (0 < k)%nat -> (0 < m)%nat -> (forall x x', lowered u x x' -> fnv1 x' (H x)) ->
  exists b, blotter_from_config (MkBlotConfig (Z.of_nat m) (Z.of_nat k)) = Ok b /\
    forall ws w, Forall (fun x => exists rs, is_text x rs) (ws ++ [w]) -> exists b' blots, blot_all u b (ws ++ [w]) =
      Ok (b', blots ++ [xors (map (fun t => match nth_error (rev (ws ++ [w])) (t * k) with
                                            | Some x => H x
                                            | None => 0 end) (seq 0 m))]).
Proof.
  intros u k m H Hk Hm Hh. destruct (blot_is_recent u k m Hk Hm) as (b & E & X). exists b. split; [exact E|]. intros ws w Ft.
  destruct (X ws w) as (b' & blots & Eb). exists b', blots. rewrite Eb. do 5 f_equal. apply map_ext. intros t.
  destruct (nth_error (rev (ws ++ [w])) (t * k)) as [x|] eqn:Ex; [|reflexivity].
  apply nth_error_In, in_rev in Ex. rewrite Forall_forall in Ft. destruct (Ft x Ex) as [rs T].
  assert (L : lowered u x (utf8s (map (fun r => written (lower_case u r)) rs))) by (exists rs; auto).
  rewrite (bytes_to_lower_lowered _ _ _ L). exact (fnv1_fun _ _ _ (fnv32_is_fnv1 _) (Hh x _ L)).
Qed.
(** There is such a hash; [word_hash] in C19 and below is one. *)
Theorem C17_word_hash : forall u x x', lowered u x x' -> fnv1 x' (word_hash u x).
Proof. intros u x x' L. unfold word_hash. rewrite (bytes_to_lower_lowered _ _ _ L). apply fnv32_is_fnv1. Qed.
(** What came before the window does not matter. *)
Theorem C17_window_only : forall u k m, (0 < k)%nat -> (0 < m)%nat ->
  exists b, blotter_from_config (MkBlotConfig (Z.of_nat m) (Z.of_nat k)) = Ok b /\
  forall before1 before2 ws, (k * (m - 1) < List.length ws)%nat ->
  exists b1 l1 b2 l2 x, blot_all u b (before1 ++ ws) = Ok (b1, l1 ++ [x]) /\ blot_all u b (before2 ++ ws) = Ok (b2, l2 ++ [x]).
Proof. exact window_only. Qed.
Print Assumptions C17_blot_is_xor_of_recent_words.
Print Assumptions C17_word_hash.
Print Assumptions C17_window_only.
(** Known values of the hash. *)
Example C17_hashes : fnv1 (bs "") 0x811c9dc5 /\ fnv1 (bs "a") 0x050c5d7e /\ fnv1 (bs "ab") 0x70772d38 /\ fnv1 (bs "abc") 0x439c2f4b.
Proof. repeat split; match goal with |- fnv1 ?s ?h => change h with (fnv32 s) end; apply fnv32_is_fnv1. Qed.
Example C17_lowered : forall u, lowered u (bs "Go1") (bs "go1").
Proof.
  intros u. exists (bs "Go1"). split; [|vm_compute; reflexivity]. split; [|vm_compute; reflexivity].
  repeat constructor; left; vm_compute; reflexivity.
Qed.
Example C17_example : forall u, exists b, blotter_from_config (MkBlotConfig 2 2) = Ok b /\
  exists b', blot_all u b [bs "a"; bs "b"; bs "c"; bs "d"] =
    Ok (b', [fnv32 (bs "a"); fnv32 (bs "b"); N.lxor (fnv32 (bs "a")) (fnv32 (bs "c"));
             N.lxor (fnv32 (bs "b")) (fnv32 (bs "d"))]).
Proof. intros u. eexists. split; [vm_compute; reflexivity|]. eexists. vm_compute. reflexivity. Qed.

(** Two windows whose words are, in some order, equal up to case. *)
Theorem C18_case_and_order : forall u k m, (0 < k)%nat -> (0 < m)%nat ->
  exists b, blotter_from_config (MkBlotConfig (Z.of_nat m) (Z.of_nat k)) = Ok b /\
  forall ws1 ws2 l1 l1' l2, recent k m ws1 = map Some l1 -> recent k m ws2 = map Some l2 ->
  Permutation l1 l1' -> Forall2 (same_letters u) l1' l2 ->
  exists b1 r1 b2 r2 x, blot_all u b ws1 = Ok (b1, r1 ++ [x]) /\ blot_all u b ws2 = Ok (b2, r2 ++ [x]).
Proof. exact case_and_order. Qed.
Print Assumptions C18_case_and_order.
Example C18_example : forall u,
  recent 1 2 [bs "x"; bs "Go"; bs "air"] = map Some [bs "air"; bs "Go"] /\
  recent 1 2 [bs "AIR"; bs "go"] = map Some [bs "go"; bs "AIR"] /\
  Forall2 (same_letters u) [bs "Go"; bs "air"] [bs "go"; bs "AIR"] /\
  blot_of (word_hash u) 1 2 [bs "x"; bs "Go"; bs "air"] = blot_of (word_hash u) 1 2 [bs "AIR"; bs "go"].
Proof.
  intros u. split; [reflexivity|]. split; [reflexivity|].
  assert (A : Forall2 (same_letters u) [bs "Go"; bs "air"] [bs "go"; bs "AIR"]).
  { assert (X : forall s, forallb (fun c => c <? 128) (bs s) = true -> is_text (bs s) (bs s)).
    { intros s Hs. split.
      - apply Forall_forall. intros c Hc. rewrite forallb_forall in Hs. apply Hs in Hc. left. lia.
      - induction (bs s) as [|c r IH]; [reflexivity|]. cbn [forallb] in Hs. apply andb_prop in Hs. destruct Hs as [H1 H2].
        unfold utf8s. cbn [map concat]. unfold utf8. rewrite H1. cbn [app]. f_equal. apply IH, H2. }
    constructor; [|constructor; [|constructor]].
    - exists (bs "Go"), (bs "go"). split; [apply X; reflexivity|]. split; [apply X; reflexivity|]. reflexivity.
    - exists (bs "air"), (bs "AIR"). split; [apply X; reflexivity|]. split; [apply X; reflexivity|]. reflexivity. }
  split; [exact A|]. vm_compute. reflexivity.
Qed.

(** [worker_run] is the life of one worker: it shatters the jobs (document id, offset,
    data) it happens to get, one after another, with the blotter it was started with. The
    batches it makes of a document are a function of the document alone: [batches] and
    [spec_blots] mention neither the worker nor the other jobs. *)
Theorem C19_posts_depend_on_document_only : forall u k m n, (0 < k)%nat -> (0 < m)%nat -> (0 < n)%nat ->
  N.of_nat n < 2 ^ 32 ->
  exists b, blotter_from_config (MkBlotConfig (Z.of_nat m) (Z.of_nat k)) = Ok b /\
  forall jobs, exists b' bs, worker_run u n (Z.of_nat (k * m)) b jobs = Ok (b', bs) /\
    List.length bs = List.length jobs /\
    forall i did offset msg ws, nth_error jobs i = Some (did, offset, msg) -> doc_words (word_char u) msg ws ->
      nth_error bs i = Some (batches n did (spec_blots (word_hash u) k m ws)).
Proof. exact worker_posts. Qed.
(** Every document has words in this sense. *)
Theorem C19_words_exist : forall u d, exists ws, doc_words (word_char u) d ws.
Proof. exact doc_words_total. Qed.
Print Assumptions C19_posts_depend_on_document_only.
Print Assumptions C19_words_exist.
Example C19_example : forall u, exists b, blotter_from_config (MkBlotConfig 1 1) = Ok b /\
  exists b', worker_run u 2 1 b [(1, 0, bs "x y z."); (2, 0, bs "a"); (3, 9, bs "w y z.")] =
    Ok (b', [batches 2 1 [fnv32 (bs "y"); fnv32 (bs "z")]; batches 2 2 []; batches 2 3 [fnv32 (bs "y"); fnv32 (bs "z")]]).
Proof. intros u. eexists. split; [vm_compute; reflexivity|]. eexists. vm_compute. reflexivity. Qed.

(** What BlotDoc reports and where a worker, after any jobs, files the same text. *)
Theorem C20_blot_doc_is_what_is_indexed : forall u c k m n, cfg_ok c k m n -> N.of_nat n < 2 ^ 32 ->
  exists b, blotter_from_config (cf_blot c) = Ok b /\ forall jobs, exists b1 sent, worker_run u n (cf_seqlen c) b jobs = Ok (b1, sent) /\
  forall did offset d, did < 2 ^ 32 ->
  exists blots b2 dd,
    blot_doc u c [] d = Ok blots /\
    shatter_do u n (cf_seqlen c) b1 did offset (d_dat d) = Ok (b2, dd) /\ List.length dd = n /\
    (forall s p, In p (nth s dd []) -> post_docid p = did) /\
    forall q, q < N.of_nat n * 65536 ->
      (In q (map (fun b => b mod (N.of_nat n * 65536)) blots) <->
       exists p, In p (nth (N.to_nat (q mod N.of_nat n)) dd []) /\ serve_slot p = q / N.of_nat n).
Proof. exact blot_doc_indexed. Qed.
(** The blots are those of the document's words, appended to what was given. *)
Theorem C20_blot_doc : forall u c k m n dst d ws, cfg_ok c k m n -> doc_words (word_char u) (d_dat d) ws ->
  blot_doc u c dst d = Ok (dst ++ spec_blots (word_hash u) k m ws).
Proof. exact blot_doc_spec. Qed.
Print Assumptions C20_blot_doc_is_what_is_indexed.
Print Assumptions C20_blot_doc.
Definition small_config := MkConfig [] 2 3 2 16384 words_simple (MkBlotConfig 2 1).
Example C20_example : cfg_ok small_config 1 2 3 /\
  forall u, blot_doc u small_config [] (MkDoc [] 0 9 (bs "a b c d. ")) =
    Ok [N.lxor (fnv32 (bs "b")) (fnv32 (bs "c")); N.lxor (fnv32 (bs "c")) (fnv32 (bs "d"))].
Proof.
  split; [constructor; try reflexivity; lia|]. intros u. vm_compute. reflexivity.
Qed.

(** Two documents with a common run of k*m words, in both preceded by at least one word.
    Missing from C21: a run at the very beginning of a document (see the refutation). *)
Theorem C21_copied_text_partial : forall u c k m n, cfg_ok c k m n ->
  forall d1 d2 a1 x1 b1 a2 x2 b2 run, List.length run = (k * m)%nat ->
  doc_words (word_char u) (d_dat d1) (a1 ++ x1 :: run ++ b1) ->
  doc_words (word_char u) (d_dat d2) (a2 ++ x2 :: run ++ b2) ->
  exists l1 l2 b, blot_doc u c [] d1 = Ok l1 /\ blot_doc u c [] d2 = Ok l2 /\ In b l1 /\ In b l2.
Proof. exact copied_text. Qed.
(** The words looked at are all the words, if the document ends in another character. *)
Theorem C21_all_words : forall u rs c, Forall scalar (rs ++ [c]) -> word_char u c = false ->
  doc_words (word_char u) (utf8s (rs ++ [c])) (words (word_char u) (rs ++ [c])).
Proof. exact all_words. Qed.
(** Documents of SeqLen words have no blots at all ... *)
Theorem C21_short_documents_have_no_blots : forall u c k m n d ws, cfg_ok c k m n ->
  doc_words (word_char u) (d_dat d) ws -> List.length ws = (k * m)%nat -> blot_doc u c [] d = Ok [].
Proof. exact short_documents. Qed.
(** ... so sharing a run of SeqLen words does not make two documents share a blot, even in
    the default configuration and when both end in a full stop. *)
Theorem C21_copied_text_refuted : exists c d1 d2 run a2 b2,
  cfg_ok c 1 10 2 /\ List.length run = 10%nat /\
  forall u, doc_words (word_char u) (d_dat d1) run /\
    doc_words (word_char u) (d_dat d2) (a2 ++ run ++ b2) /\
    blot_doc u c [] d1 = Ok [].
Proof. exact copied_text_refuted. Qed.
Print Assumptions C21_copied_text_partial.
Print Assumptions C21_all_words.
Print Assumptions C21_short_documents_have_no_blots.
Print Assumptions C21_copied_text_refuted.
Example C21_example : forall u,
  doc_words (word_char u) (bs "x b c!") ([] ++ bs "x" :: [bs "b"; bs "c"] ++ []) /\
  doc_words (word_char u) (bs "y z b c d!") ([bs "y"] ++ bs "z" :: [bs "b"; bs "c"] ++ [bs "d"]) /\
  doc_words (word_char u) (bs "b c!") [bs "b"; bs "c"] /\
  Forall scalar (bs "b c" ++ [33]) /\ word_char u 33 = false.
Proof.
  intros u. assert (X : forall s ws, forallb (fun c => c <? 128) (bs s) = true -> words (word_char u) (removelast (bs s)) = ws ->
    doc_words (word_char u) (bs s) ws).
  { intros s ws Hs E. left. exists (bs s). split; [|symmetry; exact E]. apply ascii_text, Hs. }
  split; [apply X; vm_compute; reflexivity|]. split; [apply X; vm_compute; reflexivity|].
  split; [apply X; vm_compute; reflexivity|]. split; [|reflexivity].
  repeat (constructor; [left; vm_compute; reflexivity|]). constructor.
Qed.
