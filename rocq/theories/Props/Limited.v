(** C77, C78: queries for entries with room for some documents only. *)
From Coq Require Import String.
From Verif Require Import Model.Base Model.Utf8 Model.Token Model.Blotter Model.Post Model.Poster Model.Shatter Model.Shard Model.Dmd Model.Fnames Model.Conc Model.Config Model.Run Model.Index Model.Query Model.Session.
From Verif Require Import Spec.Text Spec.Fingerprint Spec.Configs Spec.Paths Spec.Reading Spec.Querying Spec.Limited Spec.History Spec.Str.
From Verif Require Import Proof.Tactics Proof.TokenP Proof.BlotterP Proof.BlotsP Proof.QueryP Proof.QueryP2 Proof.QueryW Proof.SessionP Proof.SessionP2 Proof.LikeP3 Proof.LimitP2 Proof.LimitP3 Proof.LimitW.
Local Open Scope N_scope.
Local Open Scope list_scope.

(** Every call of Next with empty entries returns, whatever their room, whatever was asked
    before; what it returns are consecutive documents of the blot, two at least. *)
Theorem C77_next_returns : forall grow ix n content place, index_ok ix n content place ->
  forall fuel, (forall s b, (s < n)%nat -> (b < num_slots)%nat -> (List.length (content s b) < fuel)%nat) ->
  forall q out dst, queried grow ix fuel (Forall emptied) q out -> Forall emptied dst ->
  exists k r eof, query_next grow ix fuel k q dst = Ok (r, eof) /\ Forall (excerpt n content place) (out ++ firstn (r_n r) (r_dst r)).
Proof.
  intros grow ix n content place I fuel Hf q out dst Q D. destruct (limited_next grow ix place n content I fuel Hf q out dst Q D) as (k & r & eof & E).
  exists k, r, eof. split; [exact E|]. apply (limited_sound grow ix place n content I fuel Hf (r_q r)). eapply queried_next; eauto.
Qed.
(** Only so many entries are returned, however one asks ... *)
Theorem C77_bounded : forall grow ix n content place, index_ok ix n content place ->
  forall fuel, (forall s b, (s < n)%nat -> (b < num_slots)%nat -> (List.length (content s b) < fuel)%nat) ->
  exists bound, forall q out, queried grow ix fuel (Forall emptied) q out -> (List.length out <= bound)%nat.
Proof. intros grow ix n content place I fuel Hf. exact (limited_bounded grow ix place n content I fuel Hf). Qed.
(** ... and asking on gives end of file. *)
Theorem C77_ends : forall grow ix n content place, index_ok ix n content place ->
  forall fuel, (forall s b, (s < n)%nat -> (b < num_slots)%nat -> (List.length (content s b) < fuel)%nat) ->
  forall q out dst, queried grow ix fuel (Forall emptied) q out -> Forall emptied dst -> dst <> [] ->
  exists q' out' k r, queried grow ix fuel (Forall emptied) q' (out ++ out') /\ query_next grow ix fuel k q' dst = Ok (r, true) /\ r_n r = 0%nat.
Proof. intros grow ix n content place I fuel Hf. exact (limited_ends grow ix place n content I fuel Hf). Qed.
(** The same of the index opened after any history. *)
Theorem C77_histories : forall u c k m n sorted, cfg_full c k m n -> sorts sorted ->
  forall ss dk wss, history u c ss dk -> docs_fit (all_docs ss) -> words_of (word_char u) (all_docs ss) wss ->
  exists ix, open_index sorted dk = Ok ix /\ forall grow fuel, (List.length (all_docs ss) < fuel)%nat ->
  (forall q out dst, queried grow ix fuel (Forall emptied) q out -> Forall emptied dst ->
    (exists k' r eof, query_next grow ix fuel k' q dst = Ok (r, eof)) /\
    (forall e, In e out -> be_blot e < N.of_nat n * 65536 /\ exists pre mid post,
      carriers (word_hash u) k m n 0 wss (be_blot e) = pre ++ mid ++ post /\ (2 <= List.length mid)%nat /\ docs_keys (be_docs e) = map (place_of (all_docs ss)) mid) /\
    (dst <> [] -> exists q' out' k' r, queried grow ix fuel (Forall emptied) q' (out ++ out') /\ query_next grow ix fuel k' q' dst = Ok (r, true))) /\
  exists bound, forall q out, queried grow ix fuel (Forall emptied) q out -> (List.length out <= bound)%nat.
Proof.
  intros u c k m n sorted F So ss dk wss Hi Fit Ww. destruct (opened u c k m n sorted F So ss dk wss Hi Fit Ww) as (ix & E & I). exists ix. split; [exact E|]. intros grow fuel Lf.
  assert (Lh : forall s b, (s < n)%nat -> (b < num_slots)%nat -> (List.length (held (word_hash u) k m n wss s b) < fuel)%nat).
  { intros s b _ _. unfold held. pose proof (carriers_len (word_hash u) k m n (N.of_nat b * N.of_nat n + N.of_nat s) wss 0). pose proof (words_of_len _ _ _ Ww). clear - Lf H H0. lia. }
  split; [|exact (C77_bounded grow ix n _ _ I fuel Lh)]. intros q out dst Q D.
  destruct (C77_next_returns grow ix n _ _ I fuel Lh q out dst Q D) as (k' & r & eof & En & X). split; [eauto|]. apply Forall_app in X. destruct X as [X _]. split.
  - intros e He. rewrite Forall_forall in X. destruct (X e He) as (L & Y). split; [exact L|]. rewrite at_blot_held in Y; [exact Y|exact (co_n _ _ _ _ (cu_ok _ _ _ _ F))|exact L].
  - intros Ne. destruct (C77_ends grow ix n _ _ I fuel Lh q out dst Q D Ne) as (q' & out' & k2 & r' & A & B & _). eauto 8.
Qed.
Print Assumptions C77_next_returns.
Print Assumptions C77_bounded.
Print Assumptions C77_ends.
Print Assumptions C77_histories.
(** Entries without limit, without room, with room for one or for three. *)
Example C77_example : Forall emptied [MkEntry 0 None; MkEntry 0 (Some (0%nat, [])); MkEntry 0 (Some (0%nat, [zero_doc])); MkEntry 0 (Some (0%nat, repeat zero_doc 3))].
Proof. repeat constructor. Qed.

(** C78 fails: an index in the default configuration, made in one session from fifteen
    documents, where six calls of Next with an entry of capacity three return three
    documents twice. *)
Theorem C78_once_refuted : exists c docs,
  default_config (bs "/") (bs "x") = Ok c /\ cfg_full c 1 10 2 /\ docs_fit docs /\
  forall u sorted grow fuel, sorts sorted -> (15 < fuel)%nat ->
    (exists dk, history u c [docs] dk) /\
    forall dk, history u c [docs] dk ->
    exists ix content place, open_index sorted dk = Ok ix /\ index_ok ix 2 content place /\
      (forall s b, (s < 2)%nat -> (b < num_slots)%nat -> NoDup (content s b)) /\
      exists q out, queried grow ix fuel (room_for 3) q out /\ repeats out.
Proof. exact limited_query_repeats. Qed.
(** What does hold: no blot is returned twice when the entries cannot fill up ... *)
Theorem C78_roomy_partial : forall grow ix n content place, index_ok ix n content place ->
  forall fuel, (forall s b, (s < n)%nat -> (b < num_slots)%nat -> (List.length (content s b) < fuel)%nat) ->
  forall q out, queried grow ix fuel (Forall (roomy n content)) q out ->
  NoDup (map be_blot out) /\ forall e, In e out -> duplicated n content (be_blot e) /\ docs_keys (be_docs e) = map place (at_blot n content (be_blot e)).
Proof. intros grow ix n content place I fuel Hf. exact (next_sound grow ix place n content I fuel Hf). Qed.
(** ... and with one shard the entries for a blot, put together, are its documents in
    order: all of them, or all but the last, when end of file is reported. Missing: several
    shards with entries that can fill up. *)
Theorem C78_one_shard_partial : forall grow ix content place, index_ok ix 1 content place ->
  forall fuel, (forall s b, (s < 1)%nat -> (b < num_slots)%nat -> (List.length (content s b) < fuel)%nat) ->
  forall q out, queried grow ix fuel (Forall usable) q out -> forall blot, blot < 65536 ->
  exists ids rest, at_blot 1 content blot = ids ++ rest /\ returned out blot = map place ids /\
    forall k dst r, Forall usable dst -> query_next grow ix fuel k q dst = Ok (r, true) -> (List.length rest <= 1)%nat.
Proof. intros grow ix content place I fuel Hf. exact (one_shard grow ix place content I fuel Hf). Qed.
(** So C30 holds with one shard: every blot with two documents has been returned. *)
Theorem C30_one_shard_partial : forall grow ix content place, index_ok ix 1 content place ->
  forall fuel, (forall s b, (s < 1)%nat -> (b < num_slots)%nat -> (List.length (content s b) < fuel)%nat) ->
  forall q out k dst r, queried grow ix fuel (Forall usable) q out -> Forall usable dst -> query_next grow ix fuel k q dst = Ok (r, true) ->
  forall blot, duplicated 1 content blot -> In blot (map be_blot out).
Proof.
  intros grow ix content place I fuel Hf q out k dst r Q D E blot [L C].
  destruct (C78_one_shard_partial grow ix content place I fuel Hf q out Q blot L) as (ids & rest & A & B & Y). specialize (Y k dst r D E).
  rewrite A, app_length in C. destruct ids as [|d ids]; [cbn [List.length] in C; exfalso; clear -C Y; lia|]. clear -B. unfold returned in B.
  induction out as [|e out IH]; [discriminate|]. cbn [filter] in B. destruct (N.eqb_spec (be_blot e) blot) as [X|_]; [left; exact X|right; auto].
Qed.
Print Assumptions C78_once_refuted.
Print Assumptions C78_roomy_partial.
Print Assumptions C78_one_shard_partial.
Print Assumptions C30_one_shard_partial.
(** A configuration with one shard, whose indexes C26_opened describes. *)
Definition one_config : config := MkConfig (bs "/x") 10 1 2 16384 words_simple default_blot_config.
Example C78_example : cfg_full one_config 1 10 1 /\ Forall usable [MkEntry 0 None; MkEntry 0 (Some (0%nat, repeat zero_doc 2))] /\
  forall u sorted, sorts sorted -> exists ix, (exists dk, history u one_config [wit_docs] dk /\ open_index sorted dk = Ok ix) /\
    index_ok ix 1 (held (word_hash u) 1 10 1 wit_wss) (place_of wit_docs).
Proof.
  assert (F : cfg_full one_config 1 10 1) by (constructor; [constructor; try reflexivity; lia|reflexivity|cbn; lia]).
  split; [exact F|]. split; [constructor; [exact Logic.I|constructor; [split; [reflexivity|apply le_n]|constructor]]|]. intros u sorted So. pose proof F as [A B C].
  destruct (history_exists u one_config 1 10 1 A B C [wit_docs] ltac:(discriminate) eq_refl wit_fit) as (dk & Hi).
  destruct (opened u one_config 1 10 1 sorted F So [wit_docs] dk wit_wss Hi wit_fit (wit_words u)) as (ix & E & I). exists ix. split; [eauto|exact I].
Qed.
