(** C17, C19-C21 in the form stated in Props/Blots. *)
From Coq Require Import String.
From Coq Require Import Permutation.
From Verif Require Import Model.Base Model.Utf8 Model.Token Model.Blotter Model.Post Model.Address Model.Config Model.Index Model.Shatter.
From Verif Require Import Spec.Text Spec.Fingerprint Spec.Configs Spec.Str.
From Verif Require Import Proof.Tactics Proof.Utf8P Proof.TokenP Proof.BlotterP Proof.ShatterP Proof.IndexP Proof.IndexP2.
Local Open Scope N_scope.

Lemma ascii_text d : forallb (fun c => c <? 128) d = true -> is_text d d.
Proof.
  intros Hs. split.
  - apply Forall_forall. intros c Hc. rewrite forallb_forall in Hs. apply Hs in Hc. left. lia.
  - induction d as [|c r IH]; [reflexivity|]. cbn [forallb] in Hs. apply andb_prop in Hs. destruct Hs as [H1 H2].
    unfold utf8s. cbn [map concat]. unfold utf8. rewrite H1. cbn [app]. f_equal. apply IH, H2.
Qed.

Theorem blot_is_recent u k m : (0 < k)%nat -> (0 < m)%nat ->
  exists b, blotter_from_config (MkBlotConfig (Z.of_nat m) (Z.of_nat k)) = Ok b /\
    forall ws w, exists b' blots, blot_all u b (ws ++ [w]) =
      Ok (b', blots ++ [xors (map (fun t => match nth_error (rev (ws ++ [w])) (t * k) with
                                            | Some x => fnv32 (bytes_to_lower u x)
                                            | None => 0 end) (seq 0 m))]).
Proof.
  intros Hk Hm. destruct (blotter_fresh u k m Hk Hm) as (b & E & I). exists b. split; [exact E|].
  intros ws w. destruct (blot_all_spec u k m (ws ++ [w]) [] b I) as (b' & E' & _).
  exists b'. rewrite E', app_length. cbn [length]. rewrite seq_app, map_app. cbn [seq map Nat.add app].
  eexists. do 3 f_equal. f_equal. rewrite firstn_all2 by (rewrite app_length; cbn [length]; lia).
  unfold blot_of, recent. rewrite map_map. reflexivity.
Qed.

(** The last blot of a list of words, from a fresh blotter. *)
Lemma blot_all_last u k m b ws : blotter_inv u k m [] b -> ws <> [] ->
  exists b' l, blot_all u b ws = Ok (b', l ++ [blot_of (word_hash u) k m ws]).
Proof.
  intros I Ne. destruct (exists_last Ne) as (r & w & ->).
  destruct (blot_all_spec u k m (r ++ [w]) [] b I) as (b' & E & _). rewrite E, app_length. cbn [length].
  rewrite seq_app, map_app. cbn [seq map Nat.add app]. exists b'. eexists. do 3 f_equal. f_equal.
  rewrite firstn_all2 by (rewrite app_length; cbn [length]; lia). reflexivity.
Qed.
Theorem window_only u k m : (0 < k)%nat -> (0 < m)%nat ->
  exists b, blotter_from_config (MkBlotConfig (Z.of_nat m) (Z.of_nat k)) = Ok b /\
  forall before1 before2 ws, (k * (m - 1) < length ws)%nat ->
  exists b1 l1 b2 l2 x, blot_all u b (before1 ++ ws) = Ok (b1, l1 ++ [x]) /\ blot_all u b (before2 ++ ws) = Ok (b2, l2 ++ [x]).
Proof.
  intros Hk Hm. destruct (blotter_fresh u k m Hk Hm) as (b & E & I). exists b. split; [exact E|].
  intros a1 a2 ws L. assert (Ne : ws <> []) by (intros ->; exact (Nat.nlt_0_r _ L)).
  destruct (blot_all_last u k m b (a1 ++ ws) I) as (b1 & l1 & E1); [intros Z; apply app_eq_nil in Z; tauto|].
  destruct (blot_all_last u k m b (a2 ++ ws) I) as (b2 & l2 & E2); [intros Z; apply app_eq_nil in Z; tauto|].
  rewrite <- (blot_of_suffix _ _ _ a1 a2 ws L) in E2. exists b1, l1, b2, l2. eexists. split; [exact E1|exact E2].
Qed.
Theorem case_and_order u k m : (0 < k)%nat -> (0 < m)%nat ->
  exists b, blotter_from_config (MkBlotConfig (Z.of_nat m) (Z.of_nat k)) = Ok b /\
  forall ws1 ws2 l1 l1' l2, recent k m ws1 = map Some l1 -> recent k m ws2 = map Some l2 ->
  Permutation l1 l1' -> Forall2 (same_letters u) l1' l2 ->
  exists b1 r1 b2 r2 x, blot_all u b ws1 = Ok (b1, r1 ++ [x]) /\ blot_all u b ws2 = Ok (b2, r2 ++ [x]).
Proof.
  intros Hk Hm. destruct (blotter_fresh u k m Hk Hm) as (b & E & I). exists b. split; [exact E|].
  intros ws1 ws2 l1 l1' l2 R1 R2 P F.
  assert (Ne : forall ws l, recent k m ws = map Some l -> ws <> []).
  { intros ws l R ->. unfold recent in R. destruct m as [|m']; [lia|]. cbn [seq map rev Nat.mul nth_error] in R.
    destruct l; discriminate R. }
  destruct (blot_all_last u k m b ws1 I (Ne _ _ R1)) as (b1 & r1 & E1).
  destruct (blot_all_last u k m b ws2 I (Ne _ _ R2)) as (b2 & r2 & E2).
  rewrite <- (blot_case_order u k m ws1 ws2 l1 l1' l2 R1 R2 P F) in E2.
  exists b1, r1, b2, r2. eexists. split; [exact E1|exact E2].
Qed.

Theorem worker_posts u k m n : (0 < k)%nat -> (0 < m)%nat -> (0 < n)%nat -> N.of_nat n < 2 ^ 32 ->
  exists b, blotter_from_config (MkBlotConfig (Z.of_nat m) (Z.of_nat k)) = Ok b /\
  forall jobs, exists b' bs, worker_run u n (Z.of_nat (k * m)) b jobs = Ok (b', bs) /\ length bs = length jobs /\
    forall i did offset msg ws, nth_error jobs i = Some (did, offset, msg) -> doc_words (word_char u) msg ws ->
      nth_error bs i = Some (batches n did (spec_blots (word_hash u) k m ws)).
Proof.
  intros Hk Hm Hn Hb. destruct (blotter_fresh u k m Hk Hm) as (b & E & I). exists b. split; [exact E|].
  intros jobs. destruct (worker_run_inv u k m n Hk Hm Hn Hb jobs [] b I) as (b' & bs & h & R & _ & L & S).
  exists b', bs. auto.
Qed.

Theorem blot_doc_indexed u c k m n : cfg_ok c k m n -> N.of_nat n < 2 ^ 32 ->
  exists b, blotter_from_config (cf_blot c) = Ok b /\
  forall jobs, exists b1 sent, worker_run u n (cf_seqlen c) b jobs = Ok (b1, sent) /\
  forall did offset d, did < 2 ^ 32 ->
  exists blots b2 dd,
    blot_doc u c [] d = Ok blots /\
    shatter_do u n (cf_seqlen c) b1 did offset (d_dat d) = Ok (b2, dd) /\ length dd = n /\
    (forall s p, In p (nth s dd []) -> post_docid p = did) /\
    forall q, q < N.of_nat n * 65536 ->
      (In q (map (fun b => b mod (N.of_nat n * 65536)) blots) <->
       exists p, In p (nth (N.to_nat (q mod N.of_nat n)) dd []) /\ serve_slot p = q / N.of_nat n).
Proof.
  intros C Hb. destruct (blotter_fresh u k m (co_k _ _ _ _ C) (co_m _ _ _ _ C)) as (b0 & E0 & I0).
  exists b0. split; [rewrite (co_blot _ _ _ _ C); exact E0|]. intros jobs.
  destruct (worker_run_inv u k m n (co_k _ _ _ _ C) (co_m _ _ _ _ C) (co_n _ _ _ _ C) Hb jobs [] b0 I0)
    as (bl & sent & hist & ER & I & _).
  exists bl, sent. split; [rewrite (co_seqlen _ _ _ _ C); exact ER|]. intros did offset d Hd.
destruct (doc_words_total u (d_dat d)) as [ws W].
  pose proof (co_k _ _ _ _ C) as Hk. pose proof (co_m _ _ _ _ C) as Hm. pose proof (co_n _ _ _ _ C) as Hn.
  destruct (shatter_do_spec u k m n did offset (d_dat d) ws hist bl Hk Hm Hn Hb I W) as (bl' & E & _).
  exists (spec_blots (word_hash u) k m ws), bl', (batches n did (spec_blots (word_hash u) k m ws)).
  assert (B := spec_blots_bound u k m ws (doc_words_bytes u _ _ W)).
  split; [rewrite (blot_doc_spec u c k m n [] d ws C W); reflexivity|].
  split; [rewrite (co_seqlen _ _ _ _ C); exact E|]. split; [apply batches_length|]. split.
  - intros s p Hp. apply in_batches in Hp. destruct Hp as (_ & b & Hb' & _ & ->).
    rewrite Forall_forall in B. apply B in Hb'. apply post_make_docid; [exact Hd|].
    eapply N.le_lt_trans; [|exact Hb']. apply N.div_le_upper_bound; [lia|]. nia.
  - intros q Hq. rewrite in_map_iff.
    assert (F := filed_under n did (spec_blots (word_hash u) k m ws) q Hn Hd B). split.
    + intros (b & Eb & Hb'). apply F. eauto.
    + intros X. destruct F as [_ F]. destruct (F (conj Hq X)) as (b & Hb' & Eb). eauto.
Qed.

Theorem copied_text u c k m n : cfg_ok c k m n ->
  forall d1 d2 a1 x1 b1 a2 x2 b2 run, length run = (k * m)%nat ->
  doc_words (word_char u) (d_dat d1) (a1 ++ x1 :: run ++ b1) ->
  doc_words (word_char u) (d_dat d2) (a2 ++ x2 :: run ++ b2) ->
  exists l1 l2 b, blot_doc u c [] d1 = Ok l1 /\ blot_doc u c [] d2 = Ok l2 /\ In b l1 /\ In b l2.
Proof.
  intros C d1 d2 a1 x1 b1 a2 x2 b2 run L W1 W2.
  destruct (shared_run (word_hash u) k m n a1 x1 run b1 a2 x2 b2 (co_k _ _ _ _ C) (co_m _ _ _ _ C) L) as (q & Q1 & Q2 & _).
  do 3 eexists. split; [apply (blot_doc_spec u c k m n [] d1 _ C W1)|].
  split; [apply (blot_doc_spec u c k m n [] d2 _ C W2)|]. cbn [app]. eauto.
Qed.
Theorem all_words u rs c : Forall scalar (rs ++ [c]) -> word_char u c = false ->
  doc_words (word_char u) (utf8s (rs ++ [c])) (words (word_char u) (rs ++ [c])).
Proof.
  intros S Hc. left. exists (rs ++ [c]). split; [split; [exact S|reflexivity]|].
  rewrite removelast_last. apply words_tail, Hc.
Qed.
Theorem short_documents u c k m n d ws : cfg_ok c k m n ->
  doc_words (word_char u) (d_dat d) ws -> length ws = (k * m)%nat -> blot_doc u c [] d = Ok [].
Proof.
  intros C W L. rewrite (blot_doc_spec u c k m n [] d ws C W). unfold spec_blots. rewrite L, Nat.sub_diag. reflexivity.
Qed.
Theorem copied_text_refuted : exists c d1 d2 run a2 b2,
  cfg_ok c 1 10 2 /\ length run = 10%nat /\
  forall u, doc_words (word_char u) (d_dat d1) run /\
    doc_words (word_char u) (d_dat d2) (a2 ++ run ++ b2) /\
    blot_doc u c [] d1 = Ok [].
Proof.
  exists (MkConfig [] 10 2 2 16384 words_simple default_blot_config),
    (MkDoc [] 0 0 (bs "a b c d e f g h i j.")), (MkDoc [] 0 0 (bs "x a b c d e f g h i j k.")),
    [bs "a"; bs "b"; bs "c"; bs "d"; bs "e"; bs "f"; bs "g"; bs "h"; bs "i"; bs "j"], [bs "x"], [bs "k"].
  split; [constructor; try reflexivity; lia|]. split; [reflexivity|]. intros u.
  split; [|split; [|vm_compute; reflexivity]].
  - left. eexists. split; [apply ascii_text; reflexivity|vm_compute; reflexivity].
  - left. eexists. split; [apply ascii_text; reflexivity|vm_compute; reflexivity].
Qed.
