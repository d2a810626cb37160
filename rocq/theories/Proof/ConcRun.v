(** Model/Conc instantiated with the code's workers and servers. *)
From Verif Require Import Model.Base Model.Utf8 Model.Token Model.Blotter Model.Post Model.Shatter Model.Shard Model.Conc Model.Config Model.Run.
From Verif Require Import Spec.Text Spec.Fingerprint Spec.Configs Spec.Posting.
From Verif Require Import Proof.Tactics Proof.TokenP Proof.BlotterP Proof.ShatterP Proof.ConcP.
Local Open Scope N_scope.

Lemma docs_words u (docs : list req) : exists wss, Forall2 (fun d ws => doc_words (word_char u) (snd d) ws) docs wss.
Proof.
  induction docs as [|d docs (wss & IH)]; [exists []; constructor|].
  destruct (doc_words_total u (snd d)) as [ws E]. exists (ws :: wss). constructor; auto.
Qed.

Section R.
  Context {S : Type}.
  Variable absorb : S -> post -> S.
  Variables (u : unicode) (k m n : nat).
  Hypothesis Hk : (0 < k)%nat.
  Hypothesis Hm : (0 < m)%nat.
  Hypothesis Hn : (0 < n)%nat.
  Hypothesis Hb : N.of_nat n < 4294967296.
  Notation work := (shatter_work u n (Z.of_nat (k * m))).
  Definition wgood (b : blotter) : Prop := exists hist, blotter_inv u k m hist b.
  (** The words of a document as the model of the tokenizer finds them. *)
  Definition wordsf (d : req) : list bytes := map t_lit (filter is_word (tokenize u (snd d) 0)).
  Definition outf (did : N) (d : req) : list (list post) := batches n did (spec_blots (word_hash u) k m (wordsf d)).
  Lemma wordsf_spec d ws : doc_words (word_char u) (snd d) ws -> wordsf d = ws.
  Proof. intros D. apply doc_words_tok, D. Qed.
  Lemma outf_work : work_ok work wgood outf.
  Proof.
    intros w did d (hist & I). destruct (doc_words_total u (snd d)) as [ws E].
    destruct (shatter_do_spec u k m n did (fst d) (snd d) ws hist w Hk Hm Hn Hb I E) as (b & E1 & I1).
    exists b. unfold shatter_work, outf. rewrite (wordsf_spec d ws E). split; [exact E1|]. exists (hist ++ ws). exact I1.
  Qed.
  Lemma outf_len : @out_len req post outf n.
  Proof. intros did d. apply batches_length. Qed.
  Lemma batches_nth_d did bs j : (j < n)%nat -> nth j (batches n did bs) [] = map (post_make did) (shard_part (N.of_nat n) (N.of_nat j) bs).
  Proof. intros L. apply nth_error_nth. rewrite batches_nth by exact L. reflexivity. Qed.
  Lemma flat_posts last0 j : (j < n)%nat -> forall docs wss i,
    Forall2 (fun d ws => doc_words (word_char u) (snd d) ws) docs wss ->
    flat j (outs_from outf last0 i docs) = posts_for (word_hash u) k m n j (last0 + N.of_nat i) wss.
  Proof.
    intros Hj docs wss i F. revert i. induction F as [|d ws docs wss D F IH]; intros i; [reflexivity|].
    cbn [outs_from posts_for]. unfold flat in *. cbn [map concat]. rewrite IH. unfold outf.
    rewrite batches_nth_d by exact Hj. rewrite (wordsf_spec d ws D). unfold id. f_equal. f_equal. lia.
  Qed.

  Variables (docs : list req) (wss : list (list bytes)) (last0 : N) (ws0 : list blotter) (shards0 : list S).
  Hypothesis Hw : Forall wgood ws0.
  Hypothesis Hs : length shards0 = n.
  Hypothesis Hl : last0 + nlen docs < 4294967295.
  Hypothesis Hd : Forall2 (fun d ws => doc_words (word_char u) (snd d) ws) docs wss.
  Notation st0 := (init [docs] last0 ws0 shards0).

  Lemma run_inv st : steps work absorb st0 st -> exists c s, Inv absorb wgood outf n docs last0 shards0 (length ws0) st c s.
  Proof.
    intros H. destruct (Inv_steps work absorb wgood outf n docs last0 shards0 (length ws0) outf_work outf_len Hs Hl st0 st 0 0) as (c & s & I & _).
    - apply Inv_init; auto.
    - exact H.
    - eauto.
  Qed.
  Theorem run_prefix st : steps work absorb st0 st -> length (s_servers st) = n /\
    forall j v s0, nth_error (s_servers st) j = Some v -> nth_error shards0 j = Some s0 ->
    exists done rest, posts_for (word_hash u) k m n j last0 wss = done ++ rest /\ v_shard v = fold_left absorb done s0.
  Proof.
    intros H. destruct (run_inv st H) as (c & s & I). pose proof (Inv_servers _ _ _ _ _ _ _ _ _ _ _ I) as L. split; [exact L|].
    intros j v s0 Ev E0.
    destruct (Inv_prefix absorb wgood outf n docs last0 shards0 (length ws0) outf_len Hs Hl st c s j v s0 I Ev E0) as (pre & post & E & X).
    exists pre, post. split; [|exact X]. rewrite <- E. unfold outs.
    assert (Lj : (j < n)%nat) by (rewrite <- L; eapply nth_len, Ev).
    rewrite (flat_posts last0 j Lj docs wss 0 Hd). f_equal. lia.
  Qed.
  Theorem run_complete st j0 : steps work absorb st0 st -> s_main st = MChan j0 ->
    Forall client_done (s_clients st) /\
    forall j v s0, nth_error (s_servers st) j = Some v -> nth_error shards0 j = Some s0 ->
      v_shard v = fold_left absorb (posts_for (word_hash u) k m n j last0 wss) s0.
  Proof.
    intros H M. destruct (run_inv st H) as (c & s & I). pose proof (Inv_servers _ _ _ _ _ _ _ _ _ _ _ I) as L.
    destruct (Inv_chan absorb wgood outf n docs last0 shards0 (length ws0) Hs Hl st c s j0 I M) as (F & X).
    split; [exact F|]. intros j v s0 Ev E0. rewrite (X j v s0 Ev E0). f_equal. unfold outs.
    assert (Lj : (j < n)%nat) by (rewrite <- L; eapply nth_len, Ev).
    rewrite (flat_posts last0 j Lj docs wss 0 Hd). f_equal. lia.
  Qed.
  Theorem run_progress : (0 < length ws0)%nat ->
    exists bound, forall len st, stepsn work absorb len st0 st ->
      (len <= bound)%nat /\ (final st \/ exists st', step work absorb st st') /\ ~ sends_on_closed st.
  Proof.
    intros Hns. exists (mu outf n (length ws0) st0). intros len st H.
    assert (I0 : Inv absorb wgood outf n docs last0 shards0 (length ws0) st0 0 0) by (apply Inv_init; auto).
    destruct (stepsn_bound work absorb wgood outf n docs last0 shards0 (length ws0) outf_work outf_len Hs Hl len st0 st 0 0 I0 H) as (L & c & s & I).
    split; [lia|]. split.
    - eapply progress; eauto using outf_work, outf_len.
    - eapply no_closed_send; eauto using outf_len.
  Qed.
End R.

Lemma fold_log l : forall acc, fold_left log_post l acc = acc ++ l.
Proof. induction l as [|x l IH]; intros acc; cbn [fold_left]; [rewrite app_nil_r; reflexivity|]. rewrite IH. unfold log_post. rewrite <- app_assoc. reflexivity. Qed.

Lemma start_workers_good u c k m n ws : cfg_ok c k m n -> start_workers c = Ok ws ->
  Forall (wgood u k m) ws /\ length ws = Z.to_nat (cf_numshatters c).
Proof.
  intros O. unfold start_workers. destruct (Z.leb_spec (cf_numshatters c) 0).
  - intros X. inv X. split; [constructor|]. cbn [length]. lia.
  - rewrite (co_blot _ _ _ _ O).
    destruct (blotter_fresh u k m (co_k _ _ _ _ O) (co_m _ _ _ _ O)) as (b & E & I). rewrite E. cbn [bind].
    intros X. inv X. split; [|apply repeat_length]. apply Forall_forall. intros x Hx. apply repeat_spec in Hx. subst x. exists []. exact I.
Qed.

(** One worker, one document after another. *)
Fixpoint numbered (last : N) (docs : list req) : list (N * N * bytes) :=
  match docs with [] => [] | d :: r => (last + 1, fst d, snd d) :: numbered (last + 1) r end.
Lemma worker_posts_for u k m n : (0 < k)%nat -> (0 < m)%nat -> (0 < n)%nat -> N.of_nat n < 4294967296 ->
  forall docs wss last hist bl, Forall2 (fun d ws => doc_words (word_char u) (snd d) ws) docs wss ->
  blotter_inv u k m hist bl ->
  exists bl' bs, worker_run u n (Z.of_nat (k * m)) bl (numbered last docs) = Ok (bl', bs) /\
    forall j, (j < n)%nat -> concat (map (fun o => nth j o []) bs) = posts_for (word_hash u) k m n j last wss.
Proof.
  intros Hk Hm Hn Hb docs wss last hist bl F. revert last hist bl.
  induction F as [|d ws docs wss E F IH]; intros last hist bl I; cbn [numbered worker_run posts_for].
  - exists bl, []. split; [reflexivity|]. intros j _. reflexivity.
  - destruct (shatter_do_spec u k m n (last + 1) (fst d) (snd d) ws hist bl Hk Hm Hn Hb I E) as (b1 & E1 & I1).
    rewrite E1. cbn [bind]. destruct (IH (last + 1) _ b1 I1) as (b2 & bs & E2 & X). rewrite E2. cbn [bind].
    eexists _, _. split; [reflexivity|]. intros j Hj. cbn [map concat]. rewrite batches_nth_d by exact Hj. rewrite (X j Hj). reflexivity.
Qed.
Lemma fold_serve_batch l : forall x, fold_left serve_batch l x = fold_left serve_post (concat l) x.
Proof. induction l as [|b l IH]; intros x; cbn [fold_left concat]; [reflexivity|]. rewrite IH, fold_left_app. reflexivity. Qed.

(** The theorems for a configuration. *)
Lemma cfg_nat c k m n : cfg_ok c k m n -> Z.to_nat (cf_numshards c) = n /\ cf_seqlen c = Z.of_nat (k * m) /\ (0 < k)%nat /\ (0 < m)%nat /\ (0 < n)%nat.
Proof. intros O. split; [rewrite (co_shards _ _ _ _ O); lia|]. split; [apply (co_seqlen _ _ _ _ O)|]. split; [apply (co_k _ _ _ _ O)|]. split; [apply (co_m _ _ _ _ O)|apply (co_n _ _ _ _ O)]. Qed.

Lemma posts_in_order u c k m n ws last docs wss : cfg_ok c k m n -> N.of_nat n < 2 ^ 32 -> start_workers c = Ok ws ->
  last + nlen docs < 2 ^ 32 - 1 -> Forall2 (fun d ws => doc_words (word_char u) (snd d) ws) docs wss ->
  forall st, steps (shatter_work u (Z.to_nat (cf_numshards c)) (cf_seqlen c)) log_post (init [docs] last ws (repeat [] n)) st ->
    length (s_servers st) = n /\
    forall j v, nth_error (s_servers st) j = Some v ->
    exists rest, posts_for (word_hash u) k m n j last wss = v_shard v ++ rest /\
      (forall j0, s_main st = MChan j0 -> rest = []).
Proof.
  intros O Hn Hw Hl Hd st H. destruct (cfg_nat _ _ _ _ O) as (En & Es & Hk & Hm & Hn0). rewrite En, Es in H.
  destruct (start_workers_good u c k m n ws O Hw) as (Gw & _).
  change (2 ^ 32) with 4294967296 in *.
  assert (Hl' : last + nlen docs < 4294967295) by lia.
  destruct (run_prefix log_post u k m n Hk Hm Hn0 Hn docs wss last ws (repeat [] n) Gw (repeat_length _ _) Hl' Hd st H) as (L & X).
  split; [exact L|]. intros j v Ev. pose proof (nth_len _ _ _ Ev) as Lj. rewrite L in Lj.
  assert (E0 : nth_error (repeat (@nil post) n) j = Some []).
  { destruct (nth_ex (repeat (@nil post) n) j) as [x Ex]; [rewrite repeat_length; exact Lj|].
    rewrite Ex. apply nth_error_In, repeat_spec in Ex. subst. reflexivity. }
  destruct (X j v [] Ev E0) as (dn & rest & E & Ex). rewrite fold_log in Ex. cbn [app] in Ex. subst dn. exists rest. split; [exact E|].
  intros j0 M. destruct (run_complete log_post u k m n Hk Hm Hn0 Hn docs wss last ws (repeat [] n) Gw (repeat_length _ _) Hl' Hd st j0 H M) as (_ & Y).
  specialize (Y j v [] Ev E0). rewrite fold_log in Y. cbn [app] in Y. rewrite <- Y in E.
  rewrite <- (app_nil_r (v_shard v)) in E at 1. apply app_inv_head in E. auto.
Qed.
Lemma schedule_free u c k m n ws last docs shards : cfg_ok c k m n -> N.of_nat n < 2 ^ 32 -> start_workers c = Ok ws ->
  last + nlen docs < 2 ^ 32 - 1 -> length shards = n ->
  exists b b' bs, blotter_from_config (cf_blot c) = Ok b /\ worker_run u n (cf_seqlen c) b (numbered last docs) = Ok (b', bs) /\
  forall st j0, session_steps u c (session_start last ws shards docs) st -> s_main st = MChan j0 ->
    Forall client_done (s_clients st) /\
    map v_shard (s_servers st) = map (fun p => fold_left serve_batch (map (fun o => nth (fst p) o []) bs) (snd p)) (combine (seq 0 n) shards).
Proof.
  intros O Hn Hw Hl Hs. destruct (cfg_nat _ _ _ _ O) as (En & Es & Hk & Hm & Hn0).
  destruct (start_workers_good u c k m n ws O Hw) as (Gw & _).
  change (2 ^ 32) with 4294967296 in *. assert (Hl' : last + nlen docs < 4294967295) by lia.
  destruct (docs_words u docs) as [wss Hd].
  destruct (blotter_fresh u k m Hk Hm) as (b & Eb & Ib).
  destruct (worker_posts_for u k m n Hk Hm Hn0 Hn docs wss last [] b Hd Ib) as (b' & bs & Ebs & X).
  exists b, b', bs. split; [rewrite (co_blot _ _ _ _ O); exact Eb|]. split; [rewrite Es; exact Ebs|].
  intros st j0 H M. unfold session_steps, session_start in H. rewrite En, Es in H.
  destruct (run_prefix serve_post u k m n Hk Hm Hn0 Hn docs wss last ws shards Gw Hs Hl' Hd st H) as (L & _).
  destruct (run_complete serve_post u k m n Hk Hm Hn0 Hn docs wss last ws shards Gw Hs Hl' Hd st j0 H M) as (F & Y).
  split; [exact F|]. apply nth_error_ext'. intros j. rewrite !nth_error_map.
  destruct (nth_error (s_servers st) j) as [v|] eqn:Ev.
  - pose proof (nth_len _ _ _ Ev) as Lj. rewrite L in Lj. destruct (nth_ex shards j) as [s0 E0]; [lia|].
    assert (EC : nth_error (combine (seq 0 n) shards) j = Some (j, s0)).
    { clear -E0 Lj. change (Some (j, s0)) with (Some ((0 + j)%nat, s0)). revert n shards j s0 E0 Lj. generalize 0%nat.
      intros b n. revert b. induction n as [|n IH]; intros b [|x l] [|i] y E L; cbn [seq combine nth_error] in *; try discriminate; try lia.
      - inv E. f_equal. f_equal. lia.
      - rewrite (IH (Datatypes.S b) l i y E) by lia. f_equal. f_equal. lia. }
    rewrite EC. cbn [option_map fst snd]. f_equal. rewrite (Y j v s0 Ev E0), fold_serve_batch. f_equal. symmetry. exact (X j Lj).
  - apply nth_error_None in Ev. assert (EN : nth_error (combine (seq 0 n) shards) j = None).
    { apply nth_error_None. rewrite combine_length, seq_length. lia. }
    rewrite EN. reflexivity.
Qed.
Lemma no_deadlock u c k m n ws last docs shards : cfg_ok c k m n -> N.of_nat n < 2 ^ 32 -> start_workers c = Ok ws ->
  (0 < cf_numshatters c)%Z -> last + nlen docs < 2 ^ 32 - 1 -> length shards = n ->
  exists bound, forall len st,
    stepsn (shatter_work u (Z.to_nat (cf_numshards c)) (cf_seqlen c)) serve_post len (session_start last ws shards docs) st ->
    (len <= bound)%nat /\ (final st \/ exists st', session_step u c st st') /\ ~ sends_on_closed st.
Proof.
  intros O Hn Hw Hns Hl Hs. destruct (cfg_nat _ _ _ _ O) as (En & Es & Hk & Hm & Hn0).
  destruct (start_workers_good u c k m n ws O Hw) as (Gw & Lw).
  change (2 ^ 32) with 4294967296 in *. assert (Hl' : last + nlen docs < 4294967295) by lia.
  unfold session_step, session_start. rewrite En, Es. apply run_progress; auto. lia.
Qed.
Lemma stepsn_steps {W D P S} (work : W -> N -> D -> result (W * list (list P))) (absorb : S -> P -> S) n st st' :
  stepsn work absorb n st st' -> steps work absorb st st'.
Proof. intros H. induction H; [constructor|econstructor; eauto]. Qed.
Lemma completes u c k m n ws last docs shards : cfg_ok c k m n -> N.of_nat n < 2 ^ 32 -> start_workers c = Ok ws ->
  (0 < cf_numshatters c)%Z -> last + nlen docs < 2 ^ 32 - 1 -> length shards = n ->
  exists st, session_steps u c (session_start last ws shards docs) st /\ final st.
Proof.
  intros O Hn Hw Hns Hl Hs. destruct (no_deadlock u c k m n ws last docs shards O Hn Hw Hns Hl Hs) as (bound & X).
  assert (G : forall d len st, (bound <= len + d)%nat ->
    stepsn (shatter_work u (Z.to_nat (cf_numshards c)) (cf_seqlen c)) serve_post len (session_start last ws shards docs) st ->
    exists st', session_steps u c (session_start last ws shards docs) st' /\ final st').
  { induction d as [|d IH]; intros len st L H; destruct (X len st H) as (Lb & [F|(st' & St)] & _).
    - exists st. split; [eapply stepsn_steps, H|exact F].
    - assert (H2 : stepsn (shatter_work u (Z.to_nat (cf_numshards c)) (cf_seqlen c)) serve_post (Datatypes.S len) (session_start last ws shards docs) st')
        by (econstructor; eauto). apply X in H2. lia.
    - exists st. split; [eapply stepsn_steps, H|exact F].
    - apply (IH (Datatypes.S len) st'); [lia|]. econstructor; eauto. }
  apply (G bound 0%nat (session_start last ws shards docs)); [lia|constructor].
Qed.
Lemma two_callers_stuck u c k m n ws last a ds shards : cfg_ok c k m n -> N.of_nat n < 2 ^ 32 -> start_workers c = Ok ws ->
  length ds = Z.to_nat (cf_numshatters c) -> last + 2 + nlen ds < 2 ^ 32 - 1 ->
  exists st, session_steps u c (init [[a]; ds] last ws shards) st /\ ~ final st /\ forall st', ~ session_step u c st st'.
Proof.
  intros O Hn Hw Hds Hl. destruct (cfg_nat _ _ _ _ O) as (En & Es & Hk & Hm & Hn0).
  destruct (start_workers_good u c k m n ws O Hw) as (Gw & Lw).
  change (2 ^ 32) with 4294967296 in *.
  unfold session_steps, session_step. rewrite En, Es.
  apply (stuck (shatter_work u n (Z.of_nat (k * m))) serve_post (wgood u k m) (outf u k m n)
           (outf_work u k m n Hk Hm Hn0 Hn) a shards last ds ws); [lia|exact Gw|lia].
Qed.
