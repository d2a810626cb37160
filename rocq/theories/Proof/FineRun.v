(** Model/Fine with the code's workers and servers. *)
From Verif Require Import Model.Base Model.Utf8 Model.Token Model.Blotter Model.Post Model.Address Model.Shatter Model.Shard Model.Conc Model.Config Model.Run Model.Fine Model.FineRun.
From Verif Require Import Spec.Text Spec.Fingerprint Spec.Configs Spec.Posting Spec.Races.
From Verif Require Import Proof.Tactics Proof.TokenP Proof.BlotterP Proof.ShatterP Proof.ConcRun Proof.FineInv Proof.FineRefine Proof.FineLive Proof.RaceP.
Local Open Scope nat_scope.

Lemma upd_len : forall A i (x : A) l, length (upd i x l) = length l.
Proof. intros A i x l. revert i. induction l as [|y l IH]; intros [|i]; cbn; auto. Qed.
Lemma blot_d_len : forall d did b d', shatter_blot_d d did b = Ok d' -> length d' = length d.
Proof.
  intros d did b d' H. unfold shatter_blot_d in H. destruct (shatter_blot (u32 (nlen d)) did b) as [[i p]| | |]; try discriminate.
  cbn [bind] in H. destruct (nth_error d (N.to_nat i)); [|discriminate]. injection H as <-. apply upd_len.
Qed.
Lemma loop_len : forall u seqlen did toks words bl d bl' d', shatter_loop u seqlen did toks words bl d = Ok (bl', d') -> length d' = length d.
Proof.
  intros u seqlen did toks. induction toks as [|t r IH]; intros words bl d bl' d' H; cbn [shatter_loop] in H; [congruence|].
  destruct (t_tag t); [|eapply IH; eassumption].
  destruct (blotter_blot u bl (t_lit t)) as [[bl1 b]| | |]; try discriminate. cbn [bind] in H.
  destruct (seqlen <? words + 1)%Z; [|eapply IH; eassumption].
  destruct (shatter_blot_d d did b) as [d1| | |] eqn:E; try discriminate. cbn [bind] in H. apply IH in H. rewrite H. eapply blot_d_len; eassumption.
Qed.
Lemma work_len : forall u n seqlen w did d w' bs, shatter_work u n seqlen w did d = Ok (w', bs) -> length bs = n.
Proof. intros u n seqlen w did d w' bs H. apply loop_len in H. now rewrite repeat_length in H. Qed.

Lemma session_no_race : forall u c ws last shards docs tr s, fsession_steps u c ws (fsession_start c last ws shards docs) tr s -> ~ race tr.
Proof. intros u c ws last shards docs tr s H. now apply no_race in H. Qed.

Lemma fine_results : forall u c k m n ws last docs shards,
  cfg_ok c k m n -> (N.of_nat n < 2 ^ 32)%N -> start_workers c = Ok ws ->
  (last + nlen docs < 2 ^ 32 - 1)%N -> length shards = n ->
  exists b b' bs, blotter_from_config (cf_blot c) = Ok b /\ worker_run u n (cf_seqlen c) b (numbered last docs) = Ok (b', bs) /\
  forall tr s, fsession_steps u c ws (fsession_start c last ws shards docs) tr s -> closing (f_main s) ->
    forall j, j < n -> f_shard s j = fold_left serve_batch (map (fun o => nth j o []) bs) (nth j shards shard_create).
Proof.
  intros u c k m n ws last docs shards O Hn Hw Hl Hs. destruct (cfg_nat _ _ _ _ O) as (En & _).
  destruct (schedule_free u c k m n ws last docs shards O Hn Hw Hl Hs) as (b & b' & bs & E1 & E2 & X).
  exists b, b', bs. split; [exact E1|]. split; [exact E2|]. intros tr s H C j L.
  unfold fsession_steps, fsession_start in H. rewrite En in H.
  destruct (refine _ _ _ _ (work_len u n (cf_seqlen c)) docs last ws shards shard_create tr s eq_refl Hs H) as (I & R & Q).
  specialize (X (abs (length ws) n s)). unfold session_steps, session_start in X. rewrite En in X.
  assert (M : s_main (abs (length ws) n s) = MChan n) by (unfold abs; cbn [s_main]; destruct (f_main s); try contradiction; reflexivity).
  destruct (X _ Q M) as [_ Y]. apply (f_equal (fun l => nth_error l j)) in Y. unfold abs in Y. cbn [s_servers] in Y.
  rewrite map_map, nth_map_seq in Y by exact L. rewrite nth_error_map in Y.
  assert (EC : nth_error (combine (seq 0 n) shards) j = Some (j, nth j shards shard_create)).
  { rewrite <- Hs in L |- *. clear -L. change (Some (j, nth j shards shard_create)) with (Some (0 + j, nth j shards shard_create)). revert j L. generalize 0.
    induction shards as [|x l IH]; intros a [|j] L; cbn [length seq combine nth_error nth] in *; try lia.
    - f_equal. f_equal. lia.
    - rewrite IH by lia. f_equal. f_equal. lia. }
  rewrite EC in Y. cbn [option_map fst snd aserver v_shard] in Y. congruence.
Qed.

Lemma fine_posts : forall u c k m n ws last docs wss,
  cfg_ok c k m n -> (N.of_nat n < 2 ^ 32)%N -> start_workers c = Ok ws ->
  (last + nlen docs < 2 ^ 32 - 1)%N -> Forall2 (fun d ws => doc_words (word_char u) (snd d) ws) docs wss ->
  forall tr s, fsteps (shatter_work u n (cf_seqlen c)) log_post (length ws) n (fstart n docs last ws (repeat [] n) []) tr s ->
    forall j, j < n -> exists rest, posts_for (word_hash u) k m n j last wss = f_shard s j ++ rest /\
      (closing (f_main s) -> rest = []).
Proof.
  intros u c k m n ws last docs wss O Hn Hw Hl Hd tr s H j L. destruct (cfg_nat _ _ _ _ O) as (En & _).
  destruct (refine _ _ _ _ (work_len u n (cf_seqlen c)) docs last ws (repeat [] n) [] tr s eq_refl (repeat_length _ _) H) as (I & R & Q).
  pose proof (posts_in_order u c k m n ws last docs wss O Hn Hw Hl Hd (abs (length ws) n s)) as X. rewrite En in X. destruct (X Q) as (_ & Y).
  destruct (Y j (aserver s j)) as (rest & E & F); [unfold abs; cbn [s_servers]; now apply nth_map_seq|].
  exists rest. split; [exact E|]. intros C. apply (F n). unfold abs. cbn [s_main]. destruct (f_main s); try contradiction; reflexivity.
Qed.

Lemma fine_no_deadlock : forall u c k m n ws last docs shards,
  cfg_ok c k m n -> (N.of_nat n < 2 ^ 32)%N -> start_workers c = Ok ws -> (0 < cf_numshatters c)%Z ->
  (last + nlen docs < 2 ^ 32 - 1)%N -> length shards = n ->
  exists bound, forall moves s, fsession_moves u c ws moves (fsession_start c last ws shards docs) s ->
    moves <= bound /\ (ffinal s \/ exists es s', fsession_step u c ws s es s' /\ s' <> s) /\ ~ fsends_on_closed s.
Proof.
  intros u c k m n ws last docs shards O Hn Hw Hns Hl Hs. destruct (cfg_nat _ _ _ _ O) as (En & _).
  destruct (no_deadlock u c k m n ws last docs shards O Hn Hw Hns Hl Hs) as (bound & X).
  unfold session_step, session_start in X. rewrite En in X. unfold fsession_moves, fsession_step, fsession_start. rewrite En.
  set (s0 := fstart n docs last ws shards shard_create).
  assert (I0 : SI (length ws) n s0) by (apply (si_start (shatter_work u n (cf_seqlen c)) serve_post); reflexivity).
  assert (R0 : RI (length ws) n s0) by (apply (ri_start _ serve_post _ _ (work_len u n (cf_seqlen c))); reflexivity).
  assert (E0 : abs (length ws) n s0 = init [docs] last ws shards) by (apply (abs_start _ serve_post _ _ (work_len u n (cf_seqlen c))); [reflexivity|exact Hs]).
  exists (rank (length ws) n s0 + bound * (burst n + 1)). intros moves s H.
  destruct (fine_bounded _ serve_post _ _ (work_len u n (cf_seqlen c)) s0 bound I0 R0) with (2 := H) as (I & R & [len C] & L).
  { intros len st C. rewrite E0 in C. now apply X in C. }
  split; [exact L|]. rewrite E0 in C. destruct (X _ _ C) as (_ & G & Z). split.
  - now apply (fine_progress _ _ _ _ (work_len u n (cf_seqlen c)) s I R).
  - intros F. apply Z. exact (closed_sends _ _ _ (work_len u n (cf_seqlen c)) s I R F).
Qed.
Lemma fine_completes : forall u c k m n ws last docs shards,
  cfg_ok c k m n -> (N.of_nat n < 2 ^ 32)%N -> start_workers c = Ok ws -> (0 < cf_numshatters c)%Z ->
  (last + nlen docs < 2 ^ 32 - 1)%N -> length shards = n ->
  exists tr s, fsession_steps u c ws (fsession_start c last ws shards docs) tr s /\ ffinal s.
Proof.
  intros u c k m n ws last docs shards O Hn Hw Hns Hl Hs.
  destruct (fine_no_deadlock u c k m n ws last docs shards O Hn Hw Hns Hl Hs) as (bound & X).
  apply fine_complete with (bound := bound). intros moves s H. destruct (X moves s H) as (L & G & _). auto.
Qed.

Lemma fine_close_waits : forall u c ws last docs shards tr s, length shards = Z.to_nat (cf_numshards c) ->
  fsession_steps u c ws (fsession_start c last ws shards docs) tr s -> f_main s = FEnd ->
  (forall j, j < Z.to_nat (cf_numshards c) -> f_closer s j = CDone /\ f_closed s j = true) /\
  (forall k, f_worker s k = WStop \/ exists rq, f_worker s k = WQuit rq) /\ (forall k j, f_send s k j = GOff).
Proof.
  intros u c ws last docs shards tr s Hs H E. set (n := Z.to_nat (cf_numshards c)) in *.
  destruct (refine _ _ _ _ (work_len u n (cf_seqlen c)) docs last ws shards shard_create tr s eq_refl Hs H) as (I & R & _).
  assert (L : lives_of (length ws) (f_main s) = 0) by now rewrite E.
  split; [|split].
  - intros j Lj. split; [now apply (r_end _ _ s R)|]. apply (i_closed _ _ s I). now rewrite E.
  - intros k. pose proof (all_stopped _ _ s I L k) as A. destruct (f_worker s k); try discriminate; eauto.
  - intros k j. pose proof (all_stopped _ _ s I L k) as A. pose proof (i_send _ _ s I k j) as B. destruct (f_worker s k); try discriminate; exact B.
Qed.
