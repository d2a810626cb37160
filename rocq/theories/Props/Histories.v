(** C30, C31, C55, C78 and C84 of the indexes that sessions make: Props/Query, Props/Limited,
    Props/Reuse and Props/Cmd have them of an index with given content. *)
From Coq Require Import String.
From Verif Require Import Model.Base Model.Utf8 Model.Token Model.Blotter Model.Post Model.Poster Model.Shatter Model.Shard Model.Dmd Model.Fnames Model.Conc Model.Config Model.Run Model.Index Model.Query Model.Session Model.Cmd.
From Verif Require Import Spec.Text Spec.Fingerprint Spec.Configs Spec.Paths Spec.Reading Spec.Querying Spec.Limited Spec.Reuse Spec.History Spec.Stretch Spec.Str.
From Verif Require Import Proof.Tactics Proof.TokenP Proof.BlotterP Proof.BlotsP Proof.QueryP Proof.QueryP2 Proof.QueryW Proof.SessionP Proof.SessionP2 Proof.LikeP3.
From Verif Require Import Props.Query Props.Limited Props.Reuse Props.Cmd.
Local Open Scope N_scope.
Local Open Scope list_scope.

(** Entries that are nil, or of length 0 with more room than there are documents. *)
Definition ample (d : nat) (e : blot_entry) : Prop := match be_docs e with None => True | Some (len, back) => len = 0%nat /\ (d < List.length back)%nat end.

Section Histories.
  Variables (u : unicode) (c : config) (k m n : nat) (sorted : list N -> list nat).
  Hypothesis F : cfg_full c k m n.
  Hypothesis S : sorts sorted.
  Variables (ss : list (list (bytes * doc))) (dk : disk) (wss : list (list bytes)).
  Hypothesis Hi : history u c ss dk.
  Hypothesis Fit : docs_fit (all_docs ss).
  Hypothesis Ww : words_of (word_char u) (all_docs ss) wss.
  Notation having q := (carriers (word_hash u) k m n 0 wss q).
  Notation cont := (held (word_hash u) k m n wss).
  Notation docs := (List.length (all_docs ss)).

  Lemma short_held s b : (List.length (cont s b) <= docs)%nat.
  Proof. unfold held. pose proof (carriers_len (word_hash u) k m n (N.of_nat b * N.of_nat n + N.of_nat s) wss 0). pose proof (words_of_len _ _ _ Ww). clear -H H0. lia. Qed.
  Lemma ample_roomy e : ample docs e -> roomy n cont e.
  Proof. unfold ample, roomy. destruct (be_docs e) as [[len back]|]; [|auto]. intros [A B]. split; [exact A|]. intros s b _ _. pose proof (short_held s b). clear -B H. lia. Qed.
  Lemma amples dst : Forall (ample docs) dst -> Forall (roomy n cont) dst.
  Proof. apply Forall_impl. exact ample_roomy. Qed.
  Lemma queried_imp grow ix fuel (P Q : list blot_entry -> Prop) q out : (forall d, P d -> Q d) -> queried grow ix fuel P q out -> queried grow ix fuel Q q out.
  Proof. intros PQ X. induction X; [constructor|econstructor; eauto]. Qed.
  Lemma at_having q : q < N.of_nat n * 65536 -> at_blot n cont q = having q.
  Proof. intros L. apply at_blot_held; [exact (co_n _ _ _ _ (cu_ok _ _ _ _ F))|exact L]. Qed.

  Theorem C30_histories_partial : exists ix, open_index sorted dk = Ok ix /\
    forall grow fuel, (docs < fuel)%nat ->
    forall q out dst k' r, queried grow ix fuel (Forall (ample docs)) q out -> Forall (ample docs) dst -> query_next grow ix fuel k' q dst = Ok (r, true) ->
    NoDup (map be_blot out) /\ (forall blot, In blot (map be_blot out) <-> blot < N.of_nat n * 65536 /\ (2 <= List.length (having blot))%nat) /\
    (forall e, In e out -> docs_keys (be_docs e) = map (place_of (all_docs ss)) (having (be_blot e))).
  Proof.
    destruct (opened u c k m n sorted F S ss dk wss Hi Fit Ww) as (ix & E & I). exists ix. split; [exact E|]. intros grow fuel Lf q out dst k' r Q D En.
    assert (Lh : forall s b, (s < n)%nat -> (b < num_slots)%nat -> (List.length (cont s b) < fuel)%nat) by (intros s b _ _; pose proof (short_held s b); clear -Lf H; lia).
    destruct (C30_limited_entries_partial grow ix n _ _ I fuel Lh q out dst k' r (queried_imp _ _ _ _ _ _ _ amples Q) (amples _ D) En) as (A & B & C).
    assert (B' : forall blot, In blot (map be_blot out) <-> blot < N.of_nat n * 65536 /\ (2 <= List.length (having blot))%nat).
    { intros blot. rewrite B. unfold duplicated. split; intros [L X]; (split; [exact L|]); rewrite at_having in * by exact L; exact X. }
    split; [exact A|]. split; [exact B'|]. intros e He. rewrite (C e He), at_having; [reflexivity|]. apply B', in_map, He.
  Qed.
  Theorem C31_histories_refuted : exists ix, open_index sorted dk = Ok ix /\
    forall grow fuel, (docs < fuel)%nat ->
    (exists q out dst k' r, queried grow ix fuel (Forall (ample docs)) q out /\ Forall (ample docs) dst /\ query_next grow ix fuel k' q dst = Ok (r, true) /\ (r_n r < List.length dst)%nat) /\
    forall q out dst k' r eof, queried grow ix fuel (Forall (ample docs)) q out -> Forall (ample docs) dst ->
    query_next grow ix fuel k' q dst = Ok (r, eof) -> (r_n r < List.length dst)%nat ->
    forall dst', Forall (ample docs) dst' -> dst' <> [] ->
    (forall k2, N.of_nat k2 < 2 ^ 32 -> query_next grow ix fuel k2 (r_q r) dst' = Loop) /\
    exists k2 r', query_next grow ix fuel k2 (r_q r) dst' = Ok (r', true) /\ r_n r' = 0%nat.
  Proof.
    destruct (opened u c k m n sorted F S ss dk wss Hi Fit Ww) as (ix & E & I). exists ix. split; [exact E|]. intros grow fuel Lf.
    assert (Lh : forall s b, (s < n)%nat -> (b < num_slots)%nat -> (List.length (cont s b) < fuel)%nat) by (intros s b _ _; pose proof (short_held s b); clear -Lf H; lia).
    split.
    - apply (end_reached_in grow ix _ n _ I fuel Lh); [exact amples|]. constructor; [exact Logic.I|constructor].
    - intros q out dst k' r eof Q D En L dst' D' Ne. split.
      + intros k2 Lk. exact (C31_end_is_slow_refuted grow ix n _ _ I fuel Lh q out dst k' r eof (queried_imp _ _ _ _ _ _ _ amples Q) (amples _ D) En L dst' k2 (amples _ D') Ne Lk).
      + exact (C31_end_again_partial grow ix n _ _ I fuel Lh q out dst k' r eof (queried_imp _ _ _ _ _ _ _ amples Q) (amples _ D) En L dst' (amples _ D') Ne).
  Qed.
  Theorem C78_histories_partial : exists ix, open_index sorted dk = Ok ix /\
    forall grow fuel, (docs < fuel)%nat -> forall q out, queried grow ix fuel (Forall (ample docs)) q out ->
    NoDup (map be_blot out) /\ forall e, In e out -> be_blot e < N.of_nat n * 65536 /\ (2 <= List.length (having (be_blot e)))%nat /\
      docs_keys (be_docs e) = map (place_of (all_docs ss)) (having (be_blot e)).
  Proof.
    destruct (opened u c k m n sorted F S ss dk wss Hi Fit Ww) as (ix & E & I). exists ix. split; [exact E|]. intros grow fuel Lf q out Q.
    assert (Lh : forall s b, (s < n)%nat -> (b < num_slots)%nat -> (List.length (cont s b) < fuel)%nat) by (intros s b _ _; pose proof (short_held s b); clear -Lf H; lia).
    destruct (C78_roomy_partial grow ix n _ _ I fuel Lh q out (queried_imp _ _ _ _ _ _ _ amples Q)) as (A & B). split; [exact A|]. intros e He.
    destruct (B e He) as ([L C] & D). rewrite at_having in C, D by exact L. auto.
  Qed.
  (** C78 and C30 with one shard. *)
  Theorem C78_one_shard_histories_partial : n = 1%nat -> exists ix, open_index sorted dk = Ok ix /\
    forall grow fuel, (docs < fuel)%nat -> forall q out, queried grow ix fuel (Forall usable) q out ->
    (forall blot, blot < 65536 -> exists ids rest, having blot = ids ++ rest /\ returned out blot = map (place_of (all_docs ss)) ids /\
      forall k' dst r, Forall usable dst -> query_next grow ix fuel k' q dst = Ok (r, true) -> (List.length rest <= 1)%nat) /\
    forall k' dst r, Forall usable dst -> query_next grow ix fuel k' q dst = Ok (r, true) ->
    forall blot, blot < 65536 -> (2 <= List.length (having blot))%nat -> In blot (map be_blot out).
  Proof.
    intros En. destruct (opened u c k m n sorted F S ss dk wss Hi Fit Ww) as (ix & E & I). exists ix. split; [exact E|]. intros grow fuel Lf q out Q.
    assert (Lh : forall s b, (s < n)%nat -> (b < num_slots)%nat -> (List.length (cont s b) < fuel)%nat) by (intros s b _ _; pose proof (short_held s b); clear -Lf H; lia).
    pose proof at_having as Ah. revert E I Lh Ah. generalize cont. rewrite En. intros content E I Lh Ah.
    assert (Ah' : forall blot, blot < 65536 -> at_blot 1 content blot = carriers (word_hash u) k m 1 0 wss blot) by (intros blot L; rewrite <- En; rewrite En; apply Ah; exact L).
    split.
    - intros blot L. rewrite <- (Ah' _ L). exact (C78_one_shard_partial grow ix _ _ I fuel Lh q out Q blot L).
    - intros k' dst r D Er blot L C. apply (C30_one_shard_partial grow ix _ _ I fuel Lh q out k' dst r Q D Er). split; [exact L|]. rewrite (Ah' _ L). exact C.
  Qed.
  (** C84: whatever the entries have been used for. *)
  Theorem C84_histories_partial : exists ix, open_index sorted dk = Ok ix /\
    forall grow fuel, (docs < fuel)%nat -> forall q out dst, queried grow ix fuel (Forall proper) q out -> Forall proper dst ->
    exists k' r eof, query_next grow ix fuel k' q dst = Ok (r, eof) /\
    forall i e, (i < r_n r)%nat -> nth_error (r_dst r) i = Some e -> exists e0, nth_error dst i = Some e0 /\ proper e /\
      be_blot e < N.of_nat n * 65536 /\ (2 <= List.length (docs_keys (be_docs e)))%nat /\
      exists old pre mid post, (old = docs_keys (be_docs e0) \/ (List.length (docs_keys (be_docs e0)) <= 1)%nat /\ old = []) /\
        having (be_blot e) = pre ++ mid ++ post /\ docs_keys (be_docs e) = old ++ map (place_of (all_docs ss)) mid.
  Proof.
    destruct (opened u c k m n sorted F S ss dk wss Hi Fit Ww) as (ix & E & I). exists ix. split; [exact E|]. intros grow fuel Lf q out dst Q D.
    assert (Lh : forall s b, (s < n)%nat -> (b < num_slots)%nat -> (List.length (cont s b) < fuel)%nat) by (intros s b _ _; pose proof (short_held s b); clear -Lf H; lia).
    destruct (C84_next_partial grow ix n _ _ I fuel Lh q out dst Q D) as (k' & r & eof & En & X). exists k', r, eof. split; [exact En|]. intros i e L He.
    destruct (X i e L He) as (e0 & E0 & P & A). exists e0. split; [exact E0|]. split; [exact P|]. unfold appended in A. destruct A as (Lb & L2 & old & pre & mid & post & O & Ab & Ek).
    split; [exact Lb|]. split; [exact L2|]. exists old, pre, mid, post. rewrite <- at_having by exact Lb. auto.
  Qed.
  (** C55: the documents under a blot are those that carry it. *)
  Theorem C55_histories : N.of_nat n < 65536 -> exists ix, open_index sorted dk = Ok ix /\
    forall fs grow fuel q, q < N.of_nat n * 65536 -> (docs < fuel)%nat -> (forall id, In id (having q) -> readable fs (place_of (all_docs ss) id)) ->
    exists os g, Forall2 (fun id o => outcome (word_hash u) k m n (word_char u) fs q (place_of (all_docs ss) id) o) (having q) os /\
      unblot u fs grow ix fuel true q = Ok g /\
      unblot u fs grow ix fuel false q = Ok (filter (fun p => (2 <=? List.length (snd p))%nat) g) /\
      NoDup (map fst g) /\
      forall t l, In (t, l) g <-> l <> [] /\ l = concat (map (fun o => match o with Some (t', sh) => if eq_bytes t' t then [sh] else [] | None => [] end) os).
  Proof.
    intros Hn. destruct (opened u c k m n sorted F S ss dk wss Hi Fit Ww) as (ix & E & I). exists ix. split; [exact E|]. intros fs grow fuel q Lq Lf Hr.
    rewrite <- (at_having _ Lq) in *. apply (C55_unblot_exact u c k m n (cu_ok _ _ _ _ F) Hn fs grow ix _ _ fuel q (opened_cfg u c k m n sorted F ss dk ix Hi Fit E) I); [|exact Hr].
    unfold at_blot. pose proof (short_held (N.to_nat (q mod N.of_nat n)) (N.to_nat (q / N.of_nat n mod 65536))) as L. clear -L Lf. lia.
  Qed.
End Histories.
Print Assumptions C30_histories_partial.
Print Assumptions C31_histories_refuted.
Print Assumptions C78_histories_partial.
Print Assumptions C78_one_shard_histories_partial.
Print Assumptions C84_histories_partial.
Print Assumptions C55_histories.
(** Histories, with one shard and with two: C78_example and C55_example. Entries: *)
Example C30_C84_example : Forall (ample 5) [MkEntry 0 None; MkEntry 0 (Some (0%nat, repeat zero_doc 6))].
Proof. constructor; [exact Logic.I|]. constructor; [|constructor]. split; [reflexivity|cbn [repeat List.length]; lia]. Qed.
