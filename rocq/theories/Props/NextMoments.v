(** C111: what Query.Next tells while others append. *)
From Coq Require Import String Lia.
From Verif Require Import Model.Base Model.Utf8 Model.Token Model.Blotter Model.Post Model.Poster Model.Shatter Model.Shard Model.Dmd Model.Fnames Model.Conc Model.Config Model.Json Model.Run Model.Index Model.Query Model.Session Model.Crash Model.Live Model.Moments Model.Timeline Model.NextMoments.
From Verif Require Import Spec.Text Spec.Fingerprint Spec.Configs Spec.Paths Spec.Reading Spec.Querying Spec.History Spec.Str Spec.Live Spec.InTurn.
From Verif Require Import Proof.Tactics Proof.TokenP Proof.BlotterP Proof.ShardP Proof.QueryP Proof.QueryW Proof.SessionP Proof.SessionP2 Proof.CrashP Proof.CrashP2 Proof.LiveP Proof.MomentsP Proof.TimelineP Proof.AgreeP Proof.NextMomentsP Proof.NextMomentsP2 Props.Live Props.Moments Props.Timeline Props.Query.
Local Open Scope N_scope.
Local Open Scope list_scope.

(** [ix], [dk], [news] and [now] as in [C111_answers_right]. Calls of Next with unlimited
    entries, one after the other, each of their reads at a moment of its own: an entry they
    returned has two documents at least, which are the first so many of those that have its
    blot after all these sessions, in order and each with its place; and those that had it
    when the index was opened are among them. Not claimed: that Next does not fail (C85). *)
Theorem C111_entries_right : forall u c k m n sorted, cfg_full c k m n -> sorts sorted ->
  forall ss dk ix wss0 now news wss1, history u c ss dk -> open_index sorted dk = Ok ix ->
  docs_fit (all_docs ss ++ all_docs news) -> words_of (word_char u) (all_docs ss) wss0 -> words_of (word_char u) (all_docs news) wss1 ->
  (forall t, seen_during u dk news (now t)) ->
  forall grow fuel q t out, queried_during grow ix now fuel unlimited q t out -> forall e, In e out ->
  let ids0 := carriers (word_hash u) k m n 0 wss0 (be_blot e) in
  let ids := carriers (word_hash u) k m n 0 (wss0 ++ wss1) (be_blot e) in
  be_blot e < N.of_nat n * 65536 /\ (2 <= docs_len (be_docs e))%nat /\
  exists i, (i <= List.length ids)%nat /\ (List.length ids0 <= i)%nat /\
    docs_keys (be_docs e) = map (place_of (all_docs ss ++ all_docs news)) (firstn i ids).
Proof.
  intros u c k m n sorted F Hs ss dk ix wss0 now news wss1 Hi Eo Fit W0 W1 V grow fuel q t out Q e He ids0 ids.
  destruct F as [O Hn Hfl] eqn:EF. destruct (history_inv u c k m n O Hn Hfl ss dk Hi (fit_app _ _ Fit) wss0 W0) as (fn0 & fs0 & D).
  destruct (open_index_ok u c k m n O Hn sorted Hs _ wss0 fn0 fs0 dk D W0 (fit_app _ _ Fit)) as (ix' & E & I & _). assert (ix' = ix) as -> by congruence.
  assert (Pm : forall si, In si (ix_shards ix) -> perm_ok (si_counts si) (si_perm si)).
  { intros si Hsi. apply In_nth_error in Hsi. destruct Hsi as [j Ej]. exact (io_perm _ _ _ _ I j si Ej). }
  destruct (queried_told_during grow ix n fuel now (io_len _ _ _ _ I) (io_pos _ _ _ _ I) Hn Pm q t out Q) as [_ T].
  apply turn_all in T. rewrite Forall_forall in T. destruct (T e He) as (s & Lb & L2 & Eg). split; [exact Lb|]. split; [exact L2|].
  destruct (C111_answers_right u c k m n sorted F Hs ss dk ix wss0 _ news wss1 Hi Eo Fit W0 W1 (fun i => V (s + i)%nat) grow (be_blot e) fuel None _ Logic.I Eg) as (i & Li & K & R).
  rewrite (N.mod_small _ _ Lb) in Li, K, R. exists i. split; [exact Li|]. split; [|exact K]. destruct R as [R|[R _]]; [exact R|discriminate].
Qed.
(** And no blot is returned twice, and at the end of file every blot that had two documents
    when the index was opened has been returned. *)
Theorem C111_all_once : forall u c k m n sorted, cfg_full c k m n -> sorts sorted ->
  forall ss dk ix wss0 now news wss1, history u c ss dk -> open_index sorted dk = Ok ix ->
  docs_fit (all_docs ss ++ all_docs news) -> words_of (word_char u) (all_docs ss) wss0 -> words_of (word_char u) (all_docs news) wss1 ->
  (forall t, seen_during u dk news (now t)) ->
  forall grow fuel q t out, queried_during grow ix now fuel unlimited q t out -> NoDup (map be_blot out) /\
  forall dst i r t', unlimited dst -> query_next_during grow ix now fuel i t q dst = Ok (r, true, t') ->
  forall blot, blot < N.of_nat n * 65536 -> (2 <= List.length (carriers (word_hash u) k m n 0 wss0 blot))%nat -> In blot (map be_blot out).
Proof.
  intros u c k m n sorted F Hs ss dk ix wss0 now news wss1 Hi Eo Fit W0 W1 V grow fuel q t out Q.
  destruct F as [O Hn Hfl] eqn:EF. destruct (history_inv u c k m n O Hn Hfl ss dk Hi (fit_app _ _ Fit) wss0 W0) as (fn0 & fs0 & D).
  destruct (open_index_ok u c k m n O Hn sorted Hs _ wss0 fn0 fs0 dk D W0 (fit_app _ _ Fit)) as (ix' & E & I & _). assert (ix' = ix) as -> by congruence.
  assert (Pm : forall si, In si (ix_shards ix) -> perm_ok (si_counts si) (si_perm si)).
  { intros si Hsi. apply In_nth_error in Hsi. destruct Hsi as [j Ej]. exact (io_perm _ _ _ _ I j si Ej). }
  pose proof (io_len _ _ _ _ I) as Ln. pose proof (io_pos _ _ _ _ I) as Pn.
  assert (Co : forall s si b, nth_error (ix_shards ix) s = Some si -> (b < num_slots)%nat -> count si b = nlen (carriers (word_hash u) k m n 0 wss0 (num n s b))).
  { intros s si b Es Lb. destruct (io_reads _ _ _ _ I s si Es b Lb) as [_ C]. exact C. }
  assert (Ns : forall s si b t ds, nth_error (ix_shards ix) s = Some si -> (b < num_slots)%nat -> 2 <= count si b ->
    query_get_during grow ix (fun i => now (t + i)%nat) fuel (num n s b) None = Ok ds -> (2 <= docs_len ds)%nat).
  { intros s si b t0 ds Es Lb C Eg. rewrite (Co s si b Es Lb) in C. unfold nlen in C.
    assert (Ls : (s < n)%nat) by (rewrite <- Ln; apply nth_error_Some; congruence).
    destruct (num_back grow ix n Ln Pn Hn s b Ls Lb) as (_ & _ & Lm).
    destruct (C111_answers_right u c k m n sorted F Hs ss dk ix wss0 _ news wss1 Hi Eo Fit W0 W1 (fun i => V (t0 + i)%nat) grow _ fuel None _ Logic.I Eg) as (i & Li & K & R).
    rewrite (N.mod_small _ _ Lm) in Li, K, R. destruct R as [R|[R _]]; [|discriminate]. apply (f_equal (@List.length _)) in K.
    change (docs_keys None) with (@nil (bytes * N * N)) in K. cbn [app] in K. rewrite map_length, firstn_length in K.
    assert (Lk : (List.length (docs_keys ds) <= docs_len ds)%nat).
    { destruct ds as [[x back]|]; [|apply le_n]. unfold docs_keys, docs_list. cbn [docs_len]. rewrite map_length, firstn_length. apply Nat.le_min_l. }
    clear -K Lk R C Li. lia. }
  split; [exact (queried_once_during grow ix n fuel now Ln Pn Hn Pm Ns q t out Q)|].
  intros dst i r t' U En blot Lb C. destruct (num_onto grow ix n fuel Ln Pn Hn blot Lb) as (s & b & Ls & Lb' & ->).
  destruct (nth_error (ix_shards ix) s) as [si|] eqn:Es; [|apply nth_error_None in Es; lia].
  apply (queried_all_during grow ix n fuel now Ln Pn Hn Pm Ns q t out dst i r t' Q U En s si b Es Lb'). rewrite (Co s si b Es Lb'). unfold nlen. clear -C. lia.
Qed.
(** Whatever the reads see, and whatever the tables of the index hold: the entries are what
    Get answers when it begins at some read, each after the reads of those before it. *)
Theorem C111_entries_are_answers : forall grow ix now fuel, (0 < List.length (ix_shards ix))%nat -> nlen (ix_shards ix) < 65536 ->
  (forall si, In si (ix_shards ix) -> perm_ok (si_counts si) (si_perm si)) ->
  forall q t out, queried_during grow ix now fuel unlimited q t out ->
  in_turn (fun s e => query_get_during grow ix (fun i => now (s + i)%nat) fuel (be_blot e) None = Ok (be_docs e)) 0 out t.
Proof.
  intros grow ix now fuel Pn Mx Pm q t out Q. destruct (queried_told_during grow ix _ fuel now eq_refl Pn Mx Pm q t out Q) as [_ T].
  revert T. generalize 0%nat. clear Q. induction out as [|e out IH]; intros lo T; cbn [in_turn] in *; [exact T|].
  destruct T as (s & A & (_ & _ & B) & C). exists s. split; [exact A|]. split; [exact B|]. exact (IH _ C).
Qed.
(** When all reads happen at one moment, it is the query of C85: Next on the index with these
    files. *)
Theorem C111_next_at_one_moment : forall grow ix fs fuel k t q dst,
  match query_next_during grow ix (fun _ => fs) fuel k t q dst with
  | Ok (r, eof, _) => query_next grow (live ix fs) fuel k q dst = Ok (r, eof)
  | Err e => query_next grow (live ix fs) fuel k q dst = Err e
  | Panic => query_next grow (live ix fs) fuel k q dst = Panic
  | Loop => query_next grow (live ix fs) fuel k q dst = Loop
  end.
Proof.
  intros. pose proof (once_next grow ix fs fuel k t q dst) as X.
  destruct (query_next_during _ _ _ _ _ _ _ _) as [[[r eof] t']| | |]; cbn [untimed] in X; symmetry; exact X.
Qed.
Print Assumptions C111_entries_right.
Print Assumptions C111_all_once.
Print Assumptions C111_entries_are_answers.
Print Assumptions C111_next_at_one_moment.

(** The index of [C111_example]: when all reads see the files as they are after the session,
    the first entry of Next has four documents, one more than there were. *)
Example C111_entries_met u sorted : sorts sorted -> exists dk ix dk', history u wit_config [wit_docs] dk /\ open_index sorted dk = Ok ix /\
  (forall t : nat, seen_during u dk [[]; [wit_doc "1" wit_text1]] (files_of dk')) /\
  forall grow fuel, (6 < fuel)%nat -> exists q t e, queried_during grow ix (fun _ => files_of dk') fuel unlimited q t [e] /\
    be_blot e = wit_blot1 /\ docs_keys (be_docs e) = map (place_of (wit_docs ++ [wit_doc "1" wit_text1])) [1; 2; 3; 6].
Proof.
  intros Hs. destruct (C111_example u sorted Hs) as (dk & ix & dk' & Hi & Eo & _ & Sn & Ex). exists dk, ix, dk'. split; [exact Hi|]. split; [exact Eo|].
  split; [intros _; exact (Sn 1%nat)|]. intros grow fuel Lf.
  destruct (Ex grow fuel (repeat zero_doc 3) Lf eq_refl) as [_ (ds & E & K)]. rewrite C95_one_moment in E.
  destruct (opened u wit_config 1 10 2 sorted wit_full Hs [wit_docs] dk wit_wss Hi wit_fit (wit_words u)) as (ix' & Eo' & I). assert (ix' = ix) as -> by congruence.
  assert (B0 : N.of_nat (N.to_nat (wit_blot1 / 2)) * 2 = wit_blot1) by (vm_compute; reflexivity).
  assert (B1 : N.of_nat (N.to_nat (wit_blot2 / 2)) * 2 + 1 = wit_blot2) by (vm_compute; reflexivity).
  assert (Nb : num 2 0 (N.to_nat (wit_blot1 / 2)) = wit_blot1) by (vm_compute; reflexivity).
  assert (L2 : (2 <= docs_len ds)%nat).
  { apply (f_equal (@List.length _)) in K. destruct ds as [[i back]|]; [|discriminate K]. unfold docs_keys, docs_list in K. cbn [docs_len].
    rewrite !map_length, firstn_length in K. cbn [List.length] in K. lia. }
  rewrite <- Nb in E.
  destruct (first_entry grow ix _ (held (word_hash u) 1 10 2 wit_wss) fuel (files_of dk') (N.to_nat (wit_blot1 / 2)) (N.to_nat (wit_blot2 / 2)) ds I) as (r & t & En & Er); auto.
  - assert (wit_blot1 / 2 < 65536) by (vm_compute; reflexivity). unfold num_slots. lia.
  - assert (wit_blot2 / 2 < 65536) by (vm_compute; reflexivity). unfold num_slots. lia.
  - intros b Lb Nb'. unfold held. change (N.of_nat 2) with 2. change (N.of_nat 0) with 0. rewrite wit_carriers.
    destruct (N.eqb_spec wit_blot1 (N.of_nat b * 2 + 0)) as [A|_]; [exfalso; lia|].
    destruct (N.eqb_spec wit_blot2 (N.of_nat b * 2 + 0)) as [A|_]; [exfalso; lia|reflexivity].
  - intros b Lb Nb'. unfold held. change (N.of_nat 2) with 2. change (N.of_nat 1) with 1. rewrite wit_carriers.
    destruct (N.eqb_spec wit_blot1 (N.of_nat b * 2 + 1)) as [A|_]; [exfalso; lia|].
    destruct (N.eqb_spec wit_blot2 (N.of_nat b * 2 + 1)) as [A|_]; [exfalso; lia|reflexivity].
  - exists (r_q r), t, (MkEntry (num 2 0 (N.to_nat (wit_blot1 / 2))) ds). split; [|split; [exact Nb|exact K]].
    change [MkEntry (num 2 0 (N.to_nat (wit_blot1 / 2))) ds] with ([] ++ [MkEntry (num 2 0 (N.to_nat (wit_blot1 / 2))) ds]). rewrite <- Er.
    econstructor; [constructor| |exact En]. repeat constructor.
Qed.
(** And the end of file comes: all reads at the start of the session. *)
Example C111_all_once_met u sorted : sorts sorted -> exists dk ix, history u wit_config [wit_docs] dk /\ open_index sorted dk = Ok ix /\
  (forall t : nat, seen_during u dk [[wit_doc "1" wit_text1]] (files_of dk)) /\
  forall grow fuel, (5 < fuel)%nat -> exists q t out i r t', queried_during grow ix (fun _ => files_of dk) fuel unlimited q t out /\
    query_next_during grow ix (fun _ => files_of dk) fuel i t q [MkEntry 0 None] = Ok (r, true, t') /\
    In wit_blot1 (map be_blot out) /\ In wit_blot2 (map be_blot out).
Proof.
  intros Hs. destruct wit_full as [O Hn Hfl] eqn:EF.
  destruct (history_exists u wit_config 1 10 2 O Hn Hfl [wit_docs]) as [dk Hi]; [discriminate|reflexivity|exact wit_fit|].
  destruct (opened u wit_config 1 10 2 sorted wit_full Hs [wit_docs] dk wit_wss Hi wit_fit (wit_words u)) as (ix & Eo & I).
  assert (Sn : forall t : nat, seen_during u dk [[wit_doc "1" wit_text1]] (files_of dk)).
  { intros _. apply (seen_start u wit_config 1 10 2 wit_full [wit_docs] dk [] _ [] dk Hi); [constructor|rewrite app_nil_r; exact wit_fit]. }
  exists dk, ix. split; [exact Hi|]. split; [exact Eo|]. split; [exact Sn|]. intros grow fuel Lf.
  assert (Hf : forall s b, (s < 2)%nat -> (b < num_slots)%nat -> (List.length (held (word_hash u) 1 10 2 wit_wss s b) < fuel)%nat).
  { intros s b _ _. unfold held. rewrite wit_carriers. repeat match goal with |- context [if ?x then _ else _] => destruct x end; cbn [List.length]; lia. }
  destruct (QueryP2.calls_end grow ix _ 2 _ I fuel Hf unlimited (Query.unlimited_roomy 2 _) [MkEntry 0 None] ltac:(repeat constructor) ltac:(discriminate) _ _ (queried_start grow ix fuel unlimited))
    as (q & out & i & r & Q & E). cbn [app] in Q.
  rewrite <- (live_open _ _ _ Eo) in Q, E. destruct (queried_once_more _ _ _ _ _ _ _ Q) as [t Qd]. rewrite <- (once_next grow ix (files_of dk) fuel i t) in E.
  destruct (query_next_during _ _ _ _ _ _ _ _) as [[[r' eof'] t']| | |] eqn:En; cbn [untimed] in E; try discriminate. injection E as -> ->.
  exists q, t, out, i, r, t'. split; [exact Qd|]. split; [exact En|].
  assert (W1 : words_of (word_char u) (all_docs [[wit_doc "1" wit_text1]]) [wit_words1]).
  { pose proof (wit_words u) as W. unfold wit_docs, wit_wss in W. inversion W as [|? ? ? ? A _]. subst. constructor; [exact A|constructor]. }
  assert (Fit : docs_fit (all_docs [wit_docs] ++ [wit_doc "1" wit_text1])).
  { constructor; [|vm_compute; reflexivity|vm_compute; reflexivity].
    rewrite all_docs_one. apply Forall_app. split; [apply wit_fit|]. constructor; [|constructor]. split; [exists []; reflexivity|split; vm_compute; reflexivity]. }
  destruct (C111_all_once u wit_config 1 10 2 sorted wit_full Hs [wit_docs] dk ix wit_wss _ [[wit_doc "1" wit_text1]] [wit_words1] Hi Eo Fit (wit_words u) W1 Sn grow fuel q t out Qd) as [_ A].
  split; apply (A [MkEntry 0 None] i r t' ltac:(repeat constructor) En); try (vm_compute; reflexivity); rewrite wit_carriers; vm_compute; repeat constructor.
Qed.
