(** The blot, like and unblot commands: C45, C47, C54, C55. *)
From Coq Require Import String.
From Verif Require Import Model.Base Model.Utf8 Model.Token Model.Blotter Model.Conc Model.Config Model.Index Model.Query Model.Session Model.Cmd.
From Verif Require Import Spec.Text Spec.Fingerprint Spec.Configs Spec.Reading Spec.Querying Spec.History Spec.Stretch Spec.Str.
From Verif Require Import Proof.Tactics Proof.TokenP Proof.BlotterP Proof.BlotsP Proof.QueryP Proof.QueryW Proof.SessionP Proof.SessionP2 Proof.CmdP Proof.StretchP Proof.LikeP Proof.LikeP2 Proof.LikeP3 Proof.LikeW Proof.UnblotP Proof.LikeP4.
Local Open Scope N_scope.
Local Open Scope list_scope.

(** C47: "The byte range printed by blot -offsets for a blot is the range of the SeqLen+1
    words ending with the word at which the blot was produced."

    False: no range printed is ever right. The blot on line i is that of the word number
    i + SeqLen; the end printed is always before that word's end. *)
Theorem C47_offsets_refuted : forall u c k m n, cfg_ok c k m n -> N.of_nat n < 65536 ->
  forall fname dat sp lines i b s e, doc_spans (word_char u) dat sp -> nlen dat < 2 ^ 32 ->
    blot_file u c true fname dat = Ok lines -> nth_error lines i = Some (b, Some (s, e)) ->
    exists right, nth_error sp (i + k * m) = Some right /\ e < N.of_nat (snd right).
Proof. exact blot_offsets_never_right. Qed.
(** What holds: the blots are right, the command does not panic, and the range is that of
    SeqLen+1 runs of word or non-word characters, counted from the start of the file.
    Missing: the ranges of the words. *)
Theorem C47_blots_partial : forall u c k m n, cfg_ok c k m n -> N.of_nat n < 65536 ->
  forall fname dat ws, doc_words (word_char u) dat ws ->
    blot_file u c false fname dat = Ok (map (fun b => (b mod (N.of_nat n * 65536), None)) (spec_blots (word_hash u) k m ws)) /\
    (nlen dat < 2 ^ 32 -> exists lines, blot_file u c true fname dat = Ok lines /\
      map fst lines = map (fun b => b mod (N.of_nat n * 65536)) (spec_blots (word_hash u) k m ws) /\
      forall i b r, nth_error lines i = Some (b, r) ->
        exists rs, is_text dat rs /\ let R := runs (word_char u) (removelast rs) in
          let size j := N.of_nat (List.length (utf8s (concat (map snd (firstn j R))))) in
          r = Some (size i, size (S (i + k * m))) /\ (i + k * m < List.length R)%nat).
Proof. intros u c k m n C Hn fname dat ws W. split; [exact (blot_plain u c k m n C Hn fname dat ws W)|exact (blot_offsets u c k m n C Hn fname dat ws W)]. Qed.
Print Assumptions C47_offsets_refuted.
Print Assumptions C47_blots_partial.
(** Three words of "ab, cd ef." at 0-2, 4-6 and 7-9, with SeqLen 1: printed are 0-4 and 2-6,
    right are 0-6 and 4-9. *)
Definition cmd_config := MkConfig [] 1 2 2 16384 words_simple (MkBlotConfig 1 1).
Example C47_example : forall u, cfg_ok cmd_config 1 1 2 /\
  doc_spans (word_char u) (bs "ab, cd ef.") [(0, 2); (4, 6); (7, 9)]%nat /\
  exists b1 b2, blot_file u cmd_config true [] (bs "ab, cd ef.") = Ok [(b1, Some (0, 4)); (b2, Some (2, 6))].
Proof.
  intros u. split; [constructor; try reflexivity; lia|]. split; [apply ascii_spans; vm_compute; reflexivity|].
  do 2 eexists. vm_compute. reflexivity.
Qed.

(** C45: "Every document the like command reports contains, byte for byte, a stretch of the
    queried file spanning SeqLen+1 words."

    For every index (also a corrupt one) and all files; [fs] are the files when the command
    runs. The text is in the document's byte range of the file. *)
Theorem C45_like_reports_real_matches : forall u c k m n, cfg_ok c k m n -> N.of_nat n < 65536 ->
  forall fs grow ix fuel fname dat sp keys, ix_cfg ix = c -> doc_spans (word_char u) dat sp -> nlen dat < 2 ^ 32 ->
    like_file u fs grow ix fuel fname dat = Ok keys ->
    forall path start end_, In (path, start, end_) keys ->
    exists content before txt after i, fs path = Some content /\ content = before ++ txt ++ after /\
      stretch (k * m) dat sp i txt /\ txt <> [] /\
      (start <= end_ -> end_ < 2 ^ 32 -> start <= nlen before /\ (0 < end_ -> nlen before + nlen txt <= end_)).
Proof. exact like_sound. Qed.
(** Such a stretch is a text with those SeqLen+1 words. *)
Theorem C45_stretch_words : forall u d ws sp i l t, doc_words (word_char u) d ws -> doc_spans (word_char u) d sp ->
  stretch l d sp i t -> exists rs, is_text t rs /\ words (word_char u) rs = sub i (i + S l) ws.
Proof. intros u d ws sp i l t W S (a & z & Ea & Ez & ->). exact (stretch_words u d ws sp i l a z W S Ea Ez). Qed.
Print Assumptions C45_like_reports_real_matches.
Print Assumptions C45_stretch_words.

(** C54: "The like command reports every indexed document that is unchanged since it was
    indexed and contains, at word boundaries, a stretch of SeqLen+1 words of the queried
    file."

    False in two ways.  Of two stretches with the same blot (the first word of a stretch does
    not enter its blot) only the last is looked for: with the default configuration like
    reports nothing although the first document contains a stretch. *)
Theorem C54_like_misses_refuted : exists c docs fs dat,
  default_config (bs "/") (bs "x") = Ok c /\ cfg_full c 1 10 2 /\ docs_fit docs /\ all_in_place fs docs /\ nlen dat < 2 ^ 32 /\
  forall u sorted grow fuel fname, sorts sorted -> (5 < fuel)%nat ->
    (exists dk, history u c [docs] dk) /\
    forall dk ix, history u c [docs] dk -> open_index sorted dk = Ok ix ->
    (exists sp cwd x dsp t, doc_spans (word_char u) dat sp /\ nth_error docs 0 = Some (cwd, x) /\ doc_spans (word_char u) (d_dat x) dsp /\
       stretch 10 dat sp 0 t /\ stretch 10 (d_dat x) dsp 0 t) /\
    like_file u fs grow ix fuel fname dat = Ok [].
Proof. exact like_misses. Qed.
(** And a document whose file is gone makes it report nothing at all: here all other
    documents are in place, and the second is a copy of the queried file. *)
Theorem C54_missing_file_refuted : exists c docs fs dat,
  default_config (bs "/") (bs "x") = Ok c /\ cfg_full c 1 10 2 /\ docs_fit docs /\
  (forall i cwd x, (0 < i)%nat -> nth_error docs i = Some (cwd, x) -> d_start x = 0 /\ in_file fs (place_of docs (N.of_nat (S i))) (d_dat x)) /\
  (exists cwd x, nth_error docs 1 = Some (cwd, x) /\ d_dat x = dat) /\
  forall u sorted grow fuel fname, sorts sorted -> (5 < fuel)%nat ->
    (exists dk, history u c [docs] dk) /\
    forall dk ix, history u c [docs] dk -> open_index sorted dk = Ok ix ->
    like_file u fs grow ix fuel fname dat = Err EOther.
Proof. exact like_stops. Qed.
(** What holds, when all documents are in place from the start of their files: like succeeds
    and reports a document that shares a stretch of which no later one in the queried file
    has the same blot. *)
Theorem C54_like_complete_partial : forall u c k m n sorted, cfg_full c k m n -> sorts sorted ->
  forall ss dk ix grow fs fuel fname dat ws sp,
  history u c ss dk -> docs_fit (all_docs ss) -> open_index sorted dk = Ok ix -> (List.length (all_docs ss) < fuel)%nat ->
  all_in_place fs (all_docs ss) ->
  doc_words (word_char u) dat ws -> doc_spans (word_char u) dat sp -> nlen dat < 2 ^ 32 ->
  exists keys, like_file u fs grow ix fuel fname dat = Ok keys /\
    forall i cwd x dws dsp, nth_error (all_docs ss) i = Some (cwd, x) ->
      doc_words (word_char u) (d_dat x) dws -> doc_spans (word_char u) (d_dat x) dsp ->
      forall j a t, stretch (k * m) dat sp j t -> stretch (k * m) (d_dat x) dsp a t ->
        (forall q, carries (word_hash u) k m n ws q (j + k * m) ->
           forall j', (j + k * m < j')%nat -> ~ carries (word_hash u) k m n ws q j') ->
        In (place_of (all_docs ss) (N.of_nat (S i))) keys.
Proof. exact like_complete. Qed.
(** In particular all copies of the queried file, if it has more than SeqLen words. *)
Theorem C54_like_finds_copies_partial : forall u c k m n sorted, cfg_full c k m n -> sorts sorted ->
  forall ss dk ix grow fs fuel fname dat ws,
  history u c ss dk -> docs_fit (all_docs ss) -> open_index sorted dk = Ok ix -> (List.length (all_docs ss) < fuel)%nat ->
  all_in_place fs (all_docs ss) -> doc_words (word_char u) dat ws -> (k * m < List.length ws)%nat -> nlen dat < 2 ^ 32 ->
  exists keys, like_file u fs grow ix fuel fname dat = Ok keys /\
    forall i cwd x, nth_error (all_docs ss) i = Some (cwd, x) -> d_dat x = dat -> In (place_of (all_docs ss) (N.of_nat (S i))) keys.
Proof. exact like_finds_copies. Qed.
(** Exactly what is reported: the documents indexed under a blot of the queried file that
    share a stretch which is the last of its blot in the queried file. *)
Theorem C54_like_exact_partial : forall u c k m n, cfg_ok c k m n -> N.of_nat n < 65536 ->
  forall fs grow ix content place fuel fname dat ws sp, ix_cfg ix = c -> index_ok ix n content place ->
  (forall q, (List.length (at_blot n content q) < fuel)%nat) ->
  doc_words (word_char u) dat ws -> doc_spans (word_char u) dat sp -> nlen dat < 2 ^ 32 ->
  (forall q id, (exists i, carries (word_hash u) k m n ws q i) -> In id (at_blot n content q) ->
     exists path end_ ddat, place id = (path, 0, end_) /\ in_file fs (path, 0, end_) ddat /\ nlen ddat < 2 ^ 32) ->
  exists keys, like_file u fs grow ix fuel fname dat = Ok keys /\
    forall key, In key keys <->
      (exists q id, (exists i, carries (word_hash u) k m n ws q i) /\ In id (at_blot n content q) /\ key = place id) /\
      exists ddat dws dsp q t, in_file fs key ddat /\ doc_words (word_char u) ddat dws /\ doc_spans (word_char u) ddat dsp /\
        last_window (word_hash u) k m n dat ws sp q t /\ some_window (word_hash u) k m n ddat dws dsp q t.
Proof. exact like_exact. Qed.
(** The same after any history with all documents in place: each such document once. *)
Theorem C54_like_exactly_partial : forall u c k m n sorted, cfg_full c k m n -> sorts sorted ->
  forall ss dk ix grow fs fuel fname dat ws sp,
  history u c ss dk -> docs_fit (all_docs ss) -> open_index sorted dk = Ok ix -> (List.length (all_docs ss) < fuel)%nat ->
  all_in_place fs (all_docs ss) ->
  doc_words (word_char u) dat ws -> doc_spans (word_char u) dat sp -> nlen dat < 2 ^ 32 ->
  exists keys, like_file u fs grow ix fuel fname dat = Ok keys /\ NoDup keys /\
    forall key, In key keys <-> exists i cwd x dws dsp q t, nth_error (all_docs ss) i = Some (cwd, x) /\ key = place_of (all_docs ss) (N.of_nat (S i)) /\
      doc_words (word_char u) (d_dat x) dws /\ doc_spans (word_char u) (d_dat x) dsp /\
      last_window (word_hash u) k m n dat ws sp q t /\ some_window (word_hash u) k m n (d_dat x) dws dsp q t.
Proof. exact like_exactly. Qed.
Print Assumptions C54_like_exactly_partial.
Print Assumptions C54_like_misses_refuted.
Print Assumptions C54_missing_file_refuted.
Print Assumptions C54_like_complete_partial.
Print Assumptions C54_like_finds_copies_partial.
Print Assumptions C54_like_exact_partial.
(** With the five documents of Proof/QueryW in place, like on the text of the first reports
    the first three. *)
Example C45_C54_example : forall u sorted grow, sorts sorted -> exists dk ix keys,
  history u wit_config [wit_docs] dk /\ open_index sorted dk = Ok ix /\ ix_cfg ix = wit_config /\ all_in_place like_files wit_docs /\
  like_file u like_files grow ix 6 (bs "q") wit_text1 = Ok keys /\
  In (bs "/1", 0, 22) keys /\ In (bs "/2", 0, 22) keys /\ In (bs "/3", 0, 22) keys.
Proof.
  intros u sorted grow Hs. pose proof wit_full as F. destruct F as [A B C].
  destruct (history_exists u wit_config 1 10 2 A B C [wit_docs]) as [dk Hi]; [discriminate|reflexivity|exact wit_fit|].
  destruct (opened u wit_config 1 10 2 sorted wit_full Hs [wit_docs] dk wit_wss Hi wit_fit (wit_words u)) as (ix & E & I).
  destruct (like_finds_copies u wit_config 1 10 2 sorted wit_full Hs [wit_docs] dk ix grow like_files 6 (bs "q") wit_text1 wit_words1 Hi wit_fit E) as (keys & El & X).
  - change (List.length (all_docs [wit_docs])) with 5%nat. lia.
  - exact wit_place.
  - apply ascii_words; vm_compute; reflexivity.
  - vm_compute. lia.
  - vm_compute. reflexivity.
  - exists dk, ix, keys. split; [exact Hi|]. split; [exact E|]. split; [exact (opened_cfg u wit_config 1 10 2 sorted wit_full [wit_docs] dk ix Hi wit_fit E)|].
    split; [exact wit_place|]. split; [exact El|].
    split; [exact (X 0%nat _ _ eq_refl eq_refl)|]. split; [exact (X 1%nat _ _ eq_refl eq_refl)|exact (X 2%nat _ _ eq_refl eq_refl)].
Qed.

(** C55: "unblot prints, for a blot, each text with that blot that stands in an indexed
    document as its first such text, together with exactly the documents it is the first such
    text of; without -all only the texts of at least two documents."

    [g] is what is printed with -all (texts with the places shown, the texts in any order);
    [os] says for each document indexed under the blot what its first stretch with the blot is
    and what is shown of it (nothing if it cannot be read or has changed). *)
Theorem C55_unblot_exact : forall u c k m n, cfg_ok c k m n -> N.of_nat n < 65536 ->
  forall fs grow ix content place fuel q, ix_cfg ix = c -> index_ok ix n content place ->
  (List.length (at_blot n content q) < fuel)%nat ->
  (forall id, In id (at_blot n content q) -> readable fs (place id)) ->
  exists os g, Forall2 (fun id o => outcome (word_hash u) k m n (word_char u) fs q (place id) o) (at_blot n content q) os /\
    unblot u fs grow ix fuel true q = Ok g /\
    unblot u fs grow ix fuel false q = Ok (filter (fun p => (2 <=? List.length (snd p))%nat) g) /\
    NoDup (map fst g) /\
    forall t l, In (t, l) g <-> l <> [] /\ l = concat (map (fun o => match o with Some (t', sh) => if eq_bytes t' t then [sh] else [] | None => [] end) os).
Proof.
  intros u c k m n C Hn fs grow ix content place fuel q Ec I Hf Hr.
  destruct (unblot_exact u c k m n C Hn fs grow ix content place fuel q Ec I Hf Hr) as (os & g & F & E1 & E2 & ND & X).
  exists os, g. split; [exact F|]. split; [exact E1|]. split; [exact E2|]. split; [exact ND|]. intros t l. rewrite X.
  assert (Y : keys_with t (outcomes os) = concat (map (fun o => match o with Some (t', sh) => if eq_bytes t' t then [sh] else [] | None => [] end) os)).
  { clear. induction os as [|[[t' sh]|] os IH]; [reflexivity| |exact IH].
    unfold keys_with, outcomes in *. cbn [map concat filter app fst]. rewrite <- IH. destruct (eq_bytes t' t); reflexivity. }
  rewrite Y. tauto.
Qed.
(** Nothing is printed for a number that is too large to be a blot (such numbers do have
    documents: a lookup takes them modulo the number of blots). *)
Theorem C55_too_large : forall u c k m n, cfg_ok c k m n -> N.of_nat n < 65536 ->
  forall fs grow ix content place fuel q, ix_cfg ix = c -> index_ok ix n content place ->
  (List.length (at_blot n content q) < fuel)%nat ->
  (forall id, In id (at_blot n content q) -> readable fs (place id)) ->
  N.of_nat n * 65536 <= q -> forall all, unblot u fs grow ix fuel all q = Ok [].
Proof.
  intros u c k m n C Hn fs grow ix content place fuel q Ec I Hf Hr Lq.
  destruct (unblot_exact u c k m n C Hn fs grow ix content place fuel q Ec I Hf Hr) as (os & g & F & E1 & E2 & ND & X).
  assert (Eo : outcomes os = []).
  { clear -F C Hn Lq. revert F. generalize (at_blot n content q). induction os as [|o os IH]; intros ids F; [reflexivity|]. inversion F as [|id o' ids' os' Ho F']. subst.
    assert (o = None) as -> by (exact (no_large_outcome u c k m n C Hn fs q _ _ Lq Ho)). unfold outcomes in *. cbn [map concat app]. eauto. }
  assert (g = []) as ->.
  { destruct g as [|[t l] g]; [reflexivity|]. exfalso. destruct (X t l) as [X1 _]. destruct (X1 (or_introl eq_refl)) as [Hl ->]. rewrite Eo in Hl. apply Hl. reflexivity. }
  intros [|]; [exact E1|exact E2].
Qed.
Print Assumptions C55_unblot_exact.
Print Assumptions C55_too_large.
Example C55_example : forall u sorted grow, sorts sorted -> exists dk ix content,
  history u wit_config [wit_docs] dk /\ open_index sorted dk = Ok ix /\ ix_cfg ix = wit_config /\ index_ok ix 2 content (place_of wit_docs) /\
  at_blot 2 content wit_blot2 = [4; 5] /\ (forall id, In id (at_blot 2 content wit_blot2) -> readable like_files (place_of wit_docs id)) /\
  unblot u like_files grow ix 6 false wit_blot2 = Ok [(removelast wit_text2, [(bs "/4", 0, 22); (bs "/5", 0, 22)])].
Proof.
  intros u sorted grow Hs. pose proof wit_full as F. destruct F as [A B C].
  destruct (history_exists u wit_config 1 10 2 A B C [wit_docs]) as [dk Hi]; [discriminate|reflexivity|exact wit_fit|].
  destruct (opened u wit_config 1 10 2 sorted wit_full Hs [wit_docs] dk wit_wss Hi wit_fit (wit_words u)) as (ix & E & I).
  pose proof (opened_cfg u wit_config 1 10 2 sorted wit_full [wit_docs] dk ix Hi wit_fit E) as Ec.
  exists dk, ix, (held (word_hash u) 1 10 2 wit_wss). split; [exact Hi|]. split; [exact E|]. split; [exact Ec|]. split; [exact I|].
  assert (Ea : at_blot 2 (held (word_hash u) 1 10 2 wit_wss) wit_blot2 = [4; 5]).
  { rewrite (at_blot_held u 1 10 2 wit_wss wit_blot2) by (lia || (vm_compute; reflexivity)). rewrite wit_carriers. reflexivity. }
  split; [exact Ea|]. assert (R : forall id, In id [4; 5] -> readable like_files (place_of wit_docs id)).
  { intros id [<-|[<-|[]]]; right; exists wit_text2; (split; [|vm_compute; reflexivity]).
    - exact (proj2 (proj2 (wit_place 3 _ _ eq_refl))).
    - exact (proj2 (proj2 (wit_place 4 _ _ eq_refl))). }
  rewrite Ea. split; [exact R|].
  destruct (get_unlimited grow ix _ 2 _ I wit_blot2 6) as (ds & Eg & _ & El).
  { change (List.length (at_blot 2 (held (word_hash u) 1 10 2 wit_wss) wit_blot2) < 6)%nat. rewrite Ea. cbn. lia. }
  unfold unblot. rewrite Eg. cbn [bind].
  assert (Ek : keys_of ds = [(bs "/4", 0, 22); (bs "/5", 0, 22)]).
  { transitivity (map doc_key (docs_list ds)); [destruct ds as [[l back]|]; reflexivity|]. rewrite El.
    change (map doc_key (map (fun d => key_doc (place_of (all_docs [wit_docs]) d) []) (at_blot 2 (held (word_hash u) 1 10 2 wit_wss) wit_blot2)) = [(bs "/4", 0, 22); (bs "/5", 0, 22)]).
    rewrite Ea. vm_compute. reflexivity. }
  rewrite Ek. cbn [unblot_docs]. rewrite Ec. vm_compute. reflexivity.
Qed.
