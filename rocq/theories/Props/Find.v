(** C40-C42: finding a blot's text in a document. *)
From Coq Require Import String.
From Verif Require Import Model.Base Model.Utf8 Model.Token Model.Blotter Model.Config Model.Index.
From Verif Require Import Spec.Text Spec.Fingerprint Spec.Configs Spec.Str.
From Verif Require Import Proof.Tactics Proof.TokenP Proof.BlotterP Proof.ShatterP Proof.IndexP Proof.IndexP2 Proof.BlotsP Proof.FindP.
Local Open Scope N_scope.

(** [carries H k m n ws q i]: word i of [ws] has k*m words before it and the blot made there
    is q modulo n*65536. The range reported runs from the start of the word k*m words
    before to the end of word i. *)
Theorem C40_find_blot_first_place : forall u c k m n, cfg_ok c k m n -> N.of_nat n < 65536 ->
  forall d q ws sp,
  doc_words (word_char u) (d_dat d) ws -> doc_spans (word_char u) (d_dat d) sp ->
  d_start d + nlen (d_dat d) < 2 ^ 32 ->
  (exists i a b, carries (word_hash u) k m n ws q i /\
     (forall j, (j < i)%nat -> ~ carries (word_hash u) k m n ws q j) /\
     nth_error sp (i - k * m) = Some a /\ nth_error sp i = Some b /\
     (fst a <= snd b <= List.length (d_dat d))%nat /\
     find_blot u c q d = Ok (d_start d + N.of_nat (fst a), d_start d + N.of_nat (snd b))) \/
  ((forall j, ~ carries (word_hash u) k m n ws q j) /\ find_blot u c q d = Err EOther).
Proof. exact find_blot_first. Qed.
(** The spans are the places of the words. *)
Theorem C40_spans_are_words : forall u d ws sp,
  doc_words (word_char u) d ws -> doc_spans (word_char u) d sp ->
  Forall2 (fun w s => sub (fst s) (snd s) d = w /\ (snd s <= List.length d)%nat) ws sp.
Proof. exact doc_span_words. Qed.
Theorem C40_spans_exist : forall u d, exists sp, doc_spans (word_char u) d sp.
Proof. exact doc_spans_total. Qed.
Print Assumptions C40_find_blot_first_place.
Print Assumptions C40_spans_are_words.
Print Assumptions C40_spans_exist.
Definition find_config := MkConfig [] 1 2 2 16384 words_simple (MkBlotConfig 1 1).
Example C40_example : forall u, cfg_ok find_config 1 1 2 /\
  doc_words (word_char u) (bs "ab, cd ef.") [bs "ab"; bs "cd"; bs "ef"] /\
  doc_spans (word_char u) (bs "ab, cd ef.") [(0, 2); (4, 6); (7, 9)]%nat /\
  find_blot u find_config (fnv32 (bs "ef") mod 131072) (MkDoc [] 100 110 (bs "ab, cd ef.")) = Ok (104, 109) /\
  find_blot u find_config (fnv32 (bs "ab") mod 131072) (MkDoc [] 100 110 (bs "ab, cd ef.")) = Err EOther.
Proof.
  intros u. split; [constructor; try reflexivity; lia|].
  split; [left; eexists; split; [apply ascii_text; reflexivity|vm_compute; reflexivity]|].
  split; [left; eexists; split; [apply ascii_text; reflexivity|vm_compute; reflexivity]|].
  split; vm_compute; reflexivity.
Qed.

Theorem C41_find_blots_only_equal_text : forall u c k m n, cfg_ok c k m n -> N.of_nat n < 65536 ->
  forall mm d res b txt, find_blots u c mm d = Ok res -> tget b res = Some txt ->
    tget b mm = Some txt /\ exists before after, d_dat d = before ++ txt ++ after.
Proof. exact find_blots_only_equal. Qed.
(** For a document starting at zero the result is exactly the given texts that stand at a
    place carrying their blot. *)
Theorem C41_find_blots_exact : forall u c k m n, cfg_ok c k m n -> N.of_nat n < 65536 ->
  forall mm d ws sp,
  doc_words (word_char u) (d_dat d) ws -> doc_spans (word_char u) (d_dat d) sp ->
  d_start d = 0 -> nlen (d_dat d) < 2 ^ 32 ->
  exists res, find_blots u c mm d = Ok res /\
    forall b txt, tget b res = Some txt <->
      tget b mm = Some txt /\
      exists i a z, carries (word_hash u) k m n ws b i /\ nth_error sp (i - k * m) = Some a /\
        nth_error sp i = Some z /\ sub (fst a) (snd z) (d_dat d) = txt.
Proof. exact find_blots_exact. Qed.
Print Assumptions C41_find_blots_only_equal_text.
Print Assumptions C41_find_blots_exact.
Definition find_map : tmap := [(fnv32 (bs "ef") mod 131072, bs "cd ef"); (fnv32 (bs "cd") mod 131072, bs "no")].
Example C41_example : forall u, exists res,
  find_blots u find_config find_map (MkDoc [] 0 10 (bs "ab, cd ef.")) = Ok res /\
  tget (fnv32 (bs "ef") mod 131072) res = Some (bs "cd ef") /\ tget (fnv32 (bs "cd") mod 131072) res = None.
Proof. intros u. eexists. split; [vm_compute; reflexivity|]. split; vm_compute; reflexivity. Qed.

(** FindBlots slices the data with positions in the file: the same text at start 100 panics,
    at start 1 it is compared with the wrong text and not found. *)
Theorem C42_find_blots_with_start_refuted : exists c mm dat,
  cfg_ok c 1 1 2 /\
  forall u,
    (exists res, find_blots u c mm (MkDoc [] 0 (nlen dat) dat) = Ok res /\ res <> []) /\
    find_blots u c mm (MkDoc [] 1 (1 + nlen dat) dat) = Ok [] /\
    find_blots u c mm (MkDoc [] 100 (100 + nlen dat) dat) = Panic.
Proof.
  exists find_config, find_map, (bs "ab, cd ef."). split; [constructor; try reflexivity; lia|]. intros u.
  split; [eexists; split; [vm_compute; reflexivity|discriminate]|]. split; vm_compute; reflexivity.
Qed.
(** So it is with all documents: as soon as one place whose blot is wanted ends, counted in
    the file, behind the end of the data (as all of them do if the document starts further
    in the file than it is long), FindBlots panics. *)
Theorem C42_find_blots_panics_refuted : forall u c k m n, cfg_ok c k m n -> N.of_nat n < 65536 ->
  forall mm d ws sp, doc_words (word_char u) (d_dat d) ws -> doc_spans (word_char u) (d_dat d) sp -> d_start d + nlen (d_dat d) < 2 ^ 32 ->
  forall b i a z, carries (word_hash u) k m n ws b i -> nth_error sp (i - k * m) = Some a -> nth_error sp i = Some z -> tget b mm <> None ->
  nlen (d_dat d) < d_start d + N.of_nat (snd z) -> find_blots u c mm d = Panic.
Proof.
  intros u c k m n C Hn mm d ws sp W S Hb b i a z Ca Ea Ez Tg L.
  apply (find_blots_any u c k m n C Hn mm d ws sp W S Hb). exists b, i, a, z. auto.
Qed.
(** Otherwise it compares the texts with what the data has further on, [d_start d] bytes
    behind the place. *)
Theorem C42_find_blots_with_start_partial : forall u c k m n, cfg_ok c k m n -> N.of_nat n < 65536 ->
  forall mm d ws sp, doc_words (word_char u) (d_dat d) ws -> doc_spans (word_char u) (d_dat d) sp -> d_start d + nlen (d_dat d) < 2 ^ 32 ->
  let wanted b i a z := carries (word_hash u) k m n ws b i /\ nth_error sp (i - k * m) = Some a /\ nth_error sp i = Some z /\ tget b mm <> None in
  (forall b i a z, wanted b i a z -> d_start d + N.of_nat (snd z) <= nlen (d_dat d)) ->
  exists res, find_blots u c mm d = Ok res /\ forall b txt, tget b res = Some txt <->
    tget b mm = Some txt /\ exists i a z, wanted b i a z /\
      sub (N.to_nat (d_start d) + fst a) (N.to_nat (d_start d) + snd z) (d_dat d) = txt.
Proof. intros u c k m n C Hn mm d ws sp W S Hb. apply (find_blots_any u c k m n C Hn mm d ws sp W S Hb). Qed.
(** What does hold of documents with a start: FindBlot gives the range it gives at start
    zero, moved by the start. *)
Theorem C42_find_blot_with_start_partial : forall u c k m n, cfg_ok c k m n -> N.of_nat n < 65536 ->
  forall d q, d_start d + nlen (d_dat d) < 2 ^ 32 ->
  find_blot u c q d =
    do! (s, e) <- find_blot u c q (MkDoc (d_path d) 0 (d_end d) (d_dat d)); Ok (d_start d + s, d_start d + e).
Proof. exact find_blot_shift. Qed.
Print Assumptions C42_find_blots_with_start_refuted.
Print Assumptions C42_find_blots_panics_refuted.
Print Assumptions C42_find_blots_with_start_partial.
Print Assumptions C42_find_blot_with_start_partial.
Example C42_example : forall u, cfg_ok find_config 1 1 2 /\
  find_blot u find_config (fnv32 (bs "ef") mod 131072) (MkDoc [] 0 10 (bs "ab, cd ef.")) = Ok (4, 9) /\
  find_blot u find_config (fnv32 (bs "ef") mod 131072) (MkDoc [] 100 110 (bs "ab, cd ef.")) = Ok (104, 109).
Proof. intros u. split; [constructor; try reflexivity; lia|]. split; vm_compute; reflexivity. Qed.
