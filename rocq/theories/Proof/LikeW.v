(** Documents that like misses. *)
From Coq Require Import String.
From Verif Require Import Model.Base Model.Utf8 Model.Token Model.Blotter Model.Shatter Model.Config Model.Conc Model.Index Model.Query Model.Session Model.Cmd.
From Verif Require Import Spec.Text Spec.Fingerprint Spec.Configs Spec.Querying Spec.History Spec.Reading Spec.Paths Spec.Stretch Spec.Str.
From Verif Require Import Proof.Tactics Proof.Utf8P Proof.TokenP Proof.BlotterP Proof.ShatterP Proof.IndexP Proof.IndexP2 Proof.FindP Proof.BlotsP Proof.QueryP Proof.SessionP Proof.SessionP2 Proof.CmdP Proof.StretchP Proof.LikeP Proof.LikeP2 Proof.LikeP3 Proof.QueryW.
Local Open Scope N_scope.
Local Open Scope list_scope.

(** The text of the first three documents, and once more with another first word. *)
Definition like_dat : bytes := bs "x a b c d e f g h i k. y a b c d e f g h i k.".
Definition like_words : list bytes := wit_words1 ++ bs "y" :: tl wit_words1.
Definition like_files (p : bytes) : option bytes :=
  if eq_bytes p (bs "/4") || eq_bytes p (bs "/5") then Some wit_text2 else Some wit_text1.
Definition spans_at (l : list nat) : list (nat * nat) := map (fun i => (i, S i)) l.
Definition like_spans : list (nat * nat) := spans_at [0;2;4;6;8;10;12;14;16;18;20; 23;25;27;29;31;33;35;37;39;41;43]%nat.
Definition wit_spans : list (nat * nat) := spans_at [0;2;4;6;8;10;12;14;16;18;20]%nat.

Lemma ascii_words u s ws : forallb (fun c => c <? 128) s = true -> words (word_char u) (removelast s) = ws -> doc_words (word_char u) s ws.
Proof. intros Hs E. left. exists s. split; [apply ascii_text, Hs|symmetry; exact E]. Qed.
Lemma ascii_spans u s sp : forallb (fun c => c <? 128) s = true -> word_spans (word_char u) (removelast s) = sp -> doc_spans (word_char u) s sp.
Proof. intros Hs E. left. exists s. split; [apply ascii_text, Hs|symmetry; exact E]. Qed.
Lemma like_words_ok u : doc_words (word_char u) like_dat like_words.
Proof. apply ascii_words; vm_compute; reflexivity. Qed.
Lemma like_spans_ok u : doc_spans (word_char u) like_dat like_spans.
Proof. apply ascii_spans; vm_compute; reflexivity. Qed.
Lemma wit_spans1 u : doc_spans (word_char u) wit_text1 wit_spans.
Proof. apply ascii_spans; vm_compute; reflexivity. Qed.
Lemma wit_spans2 u : doc_spans (word_char u) wit_text2 wit_spans.
Proof. apply ascii_spans; vm_compute; reflexivity. Qed.
Lemma words_same u d ws ws' : doc_words (word_char u) d ws -> doc_words (word_char u) d ws' -> ws = ws'.
Proof.
  intros [(r & T & ->)|(NT & ->)] [(r' & T' & ->)|(NT' & ->)];
    [rewrite (text_same _ _ _ T T'); reflexivity|exfalso; eapply NT'; eauto|exfalso; eapply NT; eauto|reflexivity].
Qed.
Lemma spans_same u d ws ws' : doc_spans (word_char u) d ws -> doc_spans (word_char u) d ws' -> ws = ws'.
Proof.
  intros [(r & T & ->)|(NT & ->)] [(r' & T' & ->)|(NT' & ->)];
    [rewrite (text_same _ _ _ T T'); reflexivity|exfalso; eapply NT'; eauto|exfalso; eapply NT; eauto|reflexivity].
Qed.

Lemma wit_place : forall i cwd x, nth_error wit_docs i = Some (cwd, x) ->
  d_start x = 0 /\ nlen (d_dat x) < 2 ^ 32 /\ in_file like_files (place_of wit_docs (N.of_nat (S i))) (d_dat x).
Proof.
  intros i cwd x E. do 5 (destruct i as [|i]; [injection E as <- <-; split; [reflexivity|]; split; [vm_compute; reflexivity|];
    eexists _, [], []; split; [vm_compute; reflexivity|]; split; [vm_compute; reflexivity|]; right; vm_compute; auto|]).
  destruct i; discriminate.
Qed.

Lemma like_none u q t : last_window (word_hash u) 1 10 2 like_dat like_words like_spans q t ->
  forall d dws dsp, doc_words (word_char u) d dws -> doc_spans (word_char u) d dsp -> d = wit_text1 \/ d = wit_text2 ->
  ~ some_window (word_hash u) 1 10 2 d dws dsp q t.
Proof.
  intros (i & Ci & La & Wt) d dws dsp Wd Sd Hd (i' & Ci' & Wt').
  assert (i' = 0%nat /\ (t = removelast wit_text1 \/ t = removelast wit_text2)) as [-> Ht].
  { destruct Wt' as (a & z & Ea & Ez & ->). assert (dsp = wit_spans) as ->.
    { destruct Hd as [->| ->]; eapply spans_same; eauto using wit_spans1, wit_spans2. }
    destruct i' as [|i']; [|exfalso; assert (X : nth_error wit_spans (S i' + 1 * 10) <> None) by congruence; apply nth_error_Some in X; change (List.length wit_spans) with 11%nat in X; lia].
    split; [reflexivity|]. injection Ea as <-. injection Ez as <-. destruct Hd as [->| ->]; vm_compute; auto. }
  destruct Wt as (a & z & Ea & Ez & ->).
  assert (Li : (i < 12)%nat). { assert (X : nth_error like_spans (i + 1 * 10) <> None) by congruence. apply nth_error_Some in X. change (List.length like_spans) with 22%nat in X. lia. }
  destruct i as [|i].
  - apply (La 21%nat); [lia|]. destruct Ci as [_ Eq]. split; [change (List.length like_words) with 22%nat; lia|]. rewrite <- Eq. vm_compute. reflexivity.
  - do 11 (destruct i as [|i]; [injection Ea as <-; injection Ez as <-; destruct Ht as [Ht|Ht]; vm_compute in Ht; discriminate Ht|]). lia.
Qed.

Theorem like_misses : exists c docs fs dat,
  default_config (bs "/") (bs "x") = Ok c /\ cfg_full c 1 10 2 /\ docs_fit docs /\ all_in_place fs docs /\ nlen dat < 2 ^ 32 /\
  forall u sorted grow fuel fname, sorts sorted -> (5 < fuel)%nat ->
    (exists dk, history u c [docs] dk) /\
    forall dk ix, history u c [docs] dk -> open_index sorted dk = Ok ix ->
    (exists sp cwd x dsp t, doc_spans (word_char u) dat sp /\ nth_error docs 0 = Some (cwd, x) /\ doc_spans (word_char u) (d_dat x) dsp /\
       stretch 10 dat sp 0 t /\ stretch 10 (d_dat x) dsp 0 t) /\
    like_file u fs grow ix fuel fname dat = Ok [].
Proof.
  exists wit_config, wit_docs, like_files, like_dat. split; [exact wit_default|]. split; [exact wit_full|]. split; [exact wit_fit|].
  split; [exact wit_place|]. split; [vm_compute; reflexivity|]. intros u sorted grow fuel fname Hs Hf. split.
  { destruct wit_full as [A B C]. apply (history_exists u wit_config 1 10 2 A B C); [discriminate|reflexivity|exact wit_fit]. }
  intros dk ix Hi Eo. split.
  { exists like_spans, (bs "/"), (MkDoc (bs "1") 0 22 wit_text1), wit_spans, (removelast wit_text1). split; [apply like_spans_ok|].
    split; [reflexivity|]. split; [apply wit_spans1|]. split; (do 2 eexists; split; [reflexivity|]; split; [reflexivity|]; vm_compute; reflexivity). }
  destruct (opened u wit_config 1 10 2 sorted wit_full Hs [wit_docs] dk wit_wss Hi wit_fit (wit_words u)) as (ix' & E & I).
  assert (ix' = ix) as -> by congruence. clear E. pose proof (opened_cfg u wit_config 1 10 2 sorted wit_full [wit_docs] dk ix Hi wit_fit Eo) as Ec.
  destruct wit_full as [C Hn _]. change (all_docs [wit_docs]) with wit_docs in I.
  destruct (like_exact u wit_config 1 10 2 C Hn like_files grow ix _ _ fuel fname like_dat like_words like_spans Ec I) as (keys & E & X).
  - intros q. unfold at_blot, held. rewrite wit_carriers. destruct (_ =? _); [cbn; lia|]. destruct (_ =? _); cbn; lia.
  - apply like_words_ok.
  - apply like_spans_ok.
  - vm_compute. reflexivity.
  - intros q id _ Hin. unfold at_blot, held in Hin. rewrite wit_carriers in Hin.
    assert (Hid : exists i p, nth_error wit_docs i = Some p /\ id = N.of_nat (S i)).
    { destruct (_ =? _) in Hin.
      - destruct Hin as [<-|[<-|[<-|[]]]]; [exists 0%nat|exists 1%nat|exists 2%nat]; eexists; split; reflexivity.
      - destruct (_ =? _) in Hin; [|destruct Hin]. destruct Hin as [<-|[<-|[]]]; [exists 3%nat|exists 4%nat]; eexists; split; reflexivity. }
    destruct Hid as (i & [cwd x] & Ex & ->). destruct (wit_place _ _ _ Ex) as (S0 & Lx & If).
    unfold place_of in *. replace (N.to_nat (N.of_nat (S i) - 1)) with i in * by lia. rewrite Ex in *. rewrite S0 in *. eauto 6.
  - rewrite E. destruct keys as [|key keys]; [reflexivity|]. exfalso. destruct (X key) as [X1 _].
    destruct (X1 (or_introl eq_refl)) as [_ (ddat & dws & dsp & q & t & If & Wd & Sd & Lw & Sw)].
    eapply like_none; [exact Lw|exact Wd|exact Sd| |exact Sw].
    destruct (X1 (or_introl eq_refl)) as [(q' & id & _ & Hin & ->) _].
    unfold at_blot, held in Hin. rewrite wit_carriers in Hin.
    assert (Hid : exists i cwd x, nth_error wit_docs i = Some (cwd, x) /\ id = N.of_nat (S i) /\ (d_dat x = wit_text1 \/ d_dat x = wit_text2)).
    { destruct (_ =? _) in Hin.
      - destruct Hin as [<-|[<-|[<-|[]]]]; [exists 0%nat|exists 1%nat|exists 2%nat]; do 2 eexists; (split; [reflexivity|]; split; [reflexivity|]; left; reflexivity).
      - destruct (_ =? _) in Hin; [|destruct Hin]. destruct Hin as [<-|[<-|[]]]; [exists 3%nat|exists 4%nat]; do 2 eexists; (split; [reflexivity|]; split; [reflexivity|]; right; reflexivity). }
    destruct Hid as (i & cwd & x & Ex & -> & Hd). destruct (wit_place _ _ _ Ex) as (_ & _ & If').
    destruct (place_of wit_docs (N.of_nat (S i))) as [[p s] e].
    destruct (in_file_load _ _ _ _ _ If) as (d1 & E1 & A1 & _). destruct (in_file_load _ _ _ _ _ If') as (d2 & E2 & A2 & _).
    assert (d1 = d2) by congruence. subst d2. rewrite <- A1, A2. exact Hd.
Qed.

(** The second and third documents are copies of the queried file, but the first is gone. *)
Definition without_first (p : bytes) : option bytes := if eq_bytes p (bs "/1") then None else like_files p.
Theorem like_stops : exists c docs fs dat,
  default_config (bs "/") (bs "x") = Ok c /\ cfg_full c 1 10 2 /\ docs_fit docs /\
  (forall i cwd x, (0 < i)%nat -> nth_error docs i = Some (cwd, x) -> d_start x = 0 /\ in_file fs (place_of docs (N.of_nat (S i))) (d_dat x)) /\
  (exists cwd x, nth_error docs 1 = Some (cwd, x) /\ d_dat x = dat) /\
  forall u sorted grow fuel fname, sorts sorted -> (5 < fuel)%nat ->
    (exists dk, history u c [docs] dk) /\
    forall dk ix, history u c [docs] dk -> open_index sorted dk = Ok ix ->
    like_file u fs grow ix fuel fname dat = Err EOther.
Proof.
  exists wit_config, wit_docs, without_first, wit_text1. split; [exact wit_default|]. split; [exact wit_full|]. split; [exact wit_fit|]. split.
  { intros i cwd x Li E. destruct i as [|i]; [lia|].
    do 4 (destruct i as [|i]; [injection E as <- <-; split; [reflexivity|];
      eexists _, [], []; split; [vm_compute; reflexivity|]; split; [vm_compute; reflexivity|]; right; vm_compute; auto|]).
    destruct i; discriminate. }
  split; [do 2 eexists; split; reflexivity|]. intros u sorted grow fuel fname Hs Hf. split.
  { destruct wit_full as [A B C]. apply (history_exists u wit_config 1 10 2 A B C); [discriminate|reflexivity|exact wit_fit]. }
  intros dk ix Hi Eo. pose proof (opened_cfg u wit_config 1 10 2 sorted wit_full [wit_docs] dk ix Hi wit_fit Eo) as Ec.
  destruct (query_exact u wit_config 1 10 2 sorted wit_full Hs [wit_docs] dk wit_wss Hi wit_fit (wit_words u)) as (ix' & E & Q).
  assert (ix' = ix) as -> by congruence. clear E. destruct wit_full as [C Hn _].
  assert (W1 : doc_words (word_char u) wit_text1 wit_words1) by (apply ascii_words; vm_compute; reflexivity).
  destruct (like_map u wit_config 1 10 2 C Hn fname wit_text1 wit_words1 wit_spans W1 (wit_spans1 u)) as (bm & Em & _); [vm_compute; reflexivity|].
  rewrite (Em without_first grow ix fuel Ec).
  assert (Eb : map (fun b => b mod (N.of_nat 2 * 65536)) (spec_blots (word_hash u) 1 10 wit_words1) = [wit_blot1]) by (vm_compute; reflexivity).
  destruct (spec_blots (word_hash u) 1 10 wit_words1) as [|b [|b2 r]]; try discriminate.
  cbn [like_loop]. rewrite Ec, (space_pos wit_config 1 10 2 C Hn), (CmdP.space wit_config 1 10 2 C Hn).
  assert (b mod (N.of_nat 2 * 65536) = wit_blot1) as -> by (cbn [map] in Eb; congruence).
  destruct (Q grow wit_blot1 fuel) as (ds & Eg & Ek); [change (List.length (all_docs [wit_docs])) with 5%nat; lia|]. rewrite Eg. cbn [bind].
  assert (Ek' : keys_of ds = docs_keys ds) by (destruct ds as [[l back]|]; reflexivity). rewrite Ek', Ek.
  rewrite wit_carriers. change (wit_blot1 =? wit_blot1 mod (N.of_nat 2 * 65536)) with true. cbv iota.
  change (map (place_of (all_docs [wit_docs])) [1; 2; 3]) with [(bs "/1", 0, 22); (bs "/2", 0, 22); (bs "/3", 0, 22)].
  cbn [like_docs existsb]. unfold load_find_blots, doc_load. change (without_first (bs "/1")) with (@None bytes). reflexivity.
Qed.
