(** C68, C69: the goroutines of an indexing session at the grain of single accesses to shared
    memory and single synchronising operations (Model/Fine). *)
From Coq Require Import String.
From Verif Require Import Model.Base Model.Utf8 Model.Token Model.Blotter Model.Post Model.Shatter Model.Shard Model.Config Model.Run Model.Fine Model.FineRun.
From Verif Require Import Spec.Text Spec.Fingerprint Spec.Configs Spec.Posting Spec.Str Spec.Races.
From Verif Require Import Proof.Tactics Proof.TokenP Proof.BlotterP Proof.ShatterP Proof.ConcRun Proof.FineInv Proof.FineRun.
Local Open Scope N_scope.
Local Open Scope list_scope.

(** No execution has a data race: all conflicting accesses are ordered by go statements,
    channels, the mutex and the wait groups. *)
Theorem C68_no_races : forall u c ws last shards docs tr s,
  fsession_steps u c ws (fsession_start c last ws shards docs) tr s -> ~ race tr.
Proof. exact session_no_race. Qed.
Print Assumptions C68_no_races.

(** As C22: with servers that write down what reaches them, this is at all times a prefix of
    the posts of the documents in order, and all of them when Close has closed the channels. *)
Theorem C69_posts_in_order : forall u c k m n ws last docs wss,
  cfg_ok c k m n -> N.of_nat n < 2 ^ 32 -> start_workers c = Ok ws ->
  last + nlen docs < 2 ^ 32 - 1 -> Forall2 (fun d ws => doc_words (word_char u) (snd d) ws) docs wss ->
  forall tr s, fsteps (shatter_work u n (cf_seqlen c)) log_post (List.length ws) n (fstart n docs last ws (repeat [] n) []) tr s ->
    forall j, (j < n)%nat -> exists rest, posts_for (word_hash u) k m n j last wss = f_shard s j ++ rest /\
      (closing (f_main s) -> rest = []).
Proof. exact fine_posts. Qed.
Print Assumptions C69_posts_in_order.

(** As C23. *)
Theorem C69_schedule_does_not_matter : forall u c k m n ws last docs shards,
  cfg_ok c k m n -> N.of_nat n < 2 ^ 32 -> start_workers c = Ok ws ->
  last + nlen docs < 2 ^ 32 - 1 -> List.length shards = n ->
  exists b b' bs, blotter_from_config (cf_blot c) = Ok b /\
  worker_run u n (cf_seqlen c) b (numbered last docs) = Ok (b', bs) /\
  forall tr s, fsession_steps u c ws (fsession_start c last ws shards docs) tr s -> closing (f_main s) ->
    forall j, (j < n)%nat -> f_shard s j = fold_left serve_batch (map (fun o => nth j o []) bs) (nth j shards shard_create).
Proof. exact fine_results. Qed.
Print Assumptions C69_schedule_does_not_matter.

(** As C24: the steps that change something are bounded in number, one is possible until
    everything is done, and nobody sends on a closed channel. *)
Theorem C69_no_deadlock : forall u c k m n ws last docs shards,
  cfg_ok c k m n -> N.of_nat n < 2 ^ 32 -> start_workers c = Ok ws -> (0 < cf_numshatters c)%Z ->
  last + nlen docs < 2 ^ 32 - 1 -> List.length shards = n ->
  exists bound, forall moves s, fsession_moves u c ws moves (fsession_start c last ws shards docs) s ->
    (moves <= bound)%nat /\ (ffinal s \/ exists es s', fsession_step u c ws s es s' /\ s' <> s) /\ ~ fsends_on_closed s.
Proof. exact fine_no_deadlock. Qed.
Print Assumptions C69_no_deadlock.
Theorem C69_completes : forall u c k m n ws last docs shards,
  cfg_ok c k m n -> N.of_nat n < 2 ^ 32 -> start_workers c = Ok ws -> (0 < cf_numshatters c)%Z ->
  last + nlen docs < 2 ^ 32 - 1 -> List.length shards = n ->
  exists tr s, fsession_steps u c ws (fsession_start c last ws shards docs) tr s /\ ffinal s.
Proof. exact fine_completes. Qed.
Print Assumptions C69_completes.

(** Close returns when the workers have been told to stop, the senders have ended, and the
    channels and the shards are closed. *)
Theorem C69_close_waits : forall u c ws last docs shards tr s, List.length shards = Z.to_nat (cf_numshards c) ->
  fsession_steps u c ws (fsession_start c last ws shards docs) tr s -> f_main s = FEnd ->
  (forall j, (j < Z.to_nat (cf_numshards c))%nat -> f_closer s j = CDone /\ f_closed s j = true) /\
  (forall k, f_worker s k = WStop \/ exists rq, f_worker s k = WQuit rq) /\ (forall k j, f_send s k j = GOff).
Proof. exact fine_close_waits. Qed.
Print Assumptions C69_close_waits.

(** [race] can be met: an execution with the channel operation left out. *)
Example C68_example : exists c ws, default_config (bs "/") (bs "/x") = Ok c /\ start_workers c = Ok ws /\
  (forall u d, exists s, fsession_steps u c ws (fsession_start c 0 ws [shard_create; shard_create] [d])
    [EAcc GMain true LAdder; EAcc GMain true (LReq 0); EMeet GMain (GWorker 1); EAcc (GWorker 1) false (LReq 0)] s) /\
  race [EAcc GMain true LAdder; EAcc GMain true (LReq 0); EAcc (GWorker 1) false (LReq 0)].
Proof.
  eexists _, _. split; [vm_compute; reflexivity|]. split; [vm_compute; reflexivity|]. split.
  - intros u d. eexists.
    eapply (fsteps_step _ _ _ _ _ [EAcc GMain true LAdder; EAcc GMain true (LReq 0); EMeet GMain (GWorker 1)]);
      [eapply (fsteps_step _ _ _ _ _ [EAcc GMain true LAdder; EAcc GMain true (LReq 0)]);
        [eapply (fsteps_step _ _ _ _ _ [EAcc GMain true LAdder]); [eapply (fsteps_step _ _ _ _ _ []); [apply fsteps_refl|]|]|]|].
    + eapply FsId. reflexivity.
    + eapply FsNew. reflexivity.
    + eapply FsGive; [reflexivity|]. reflexivity.
    + eapply FsGot. reflexivity.
  - set (tr := [EAcc GMain true LAdder; EAcc GMain true (LReq 0); EAcc (GWorker 1) false (LReq 0)]).
    assert (A : forall i j, happens_before tr i j -> (i < j)%nat /\ (j < 2)%nat).
    { intros i j H. induction H as [i j e e' L E E' O|i j k H1 IH1 H2 IH2]; [|lia]. split; [exact L|].
      destruct j as [|[|[|j]]]; try lia; cbn in E'.
      - exfalso. injection E' as <-. destruct i as [|[|i]]; [| |lia]; cbn in E; injection E as <-; inversion O as [? ? g Q Q'| | | |]; subst; cbn in Q, Q'; congruence.
      - exfalso. destruct j; discriminate. }
    exists 1%nat, 2%nat, GMain, (GWorker 1), true, false, (LReq 0). repeat split; auto; intros H; apply A in H; lia.
Qed.
Example C69_example : exists c ws, default_config (bs "/") (bs "/x") = Ok c /\ cfg_ok c 1 10 2 /\ start_workers c = Ok ws /\
  (0 < cf_numshatters c)%Z /\ List.length ws = 2%nat /\
  (forall u (docs : list req), nlen docs < 1000000 ->
     exists tr s, fsession_steps u c ws (fsession_start c 0 ws [shard_create; shard_create] docs) tr s /\ ffinal s /\ closing (f_main s)).
Proof.
  eexists _, _. split; [vm_compute; reflexivity|]. split; [constructor; vm_compute; try reflexivity; lia|].
  split; [vm_compute; reflexivity|]. split; [reflexivity|]. split; [reflexivity|].
  intros u docs L.
  match goal with |- exists tr s, fsession_steps u ?c ?ws (fsession_start ?c 0 ?ws ?shards docs) tr s /\ _ =>
    destruct (fine_completes u c 1 10 2 ws 0 docs shards) as (tr & s & H & F); try reflexivity; [|lia|] end.
  - constructor; vm_compute; try reflexivity; lia.
  - exists tr, s. split; [exact H|]. split; [exact F|]. destruct F as (E & _). rewrite E. exact Logic.I.
Qed.
