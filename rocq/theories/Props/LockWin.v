(** C110: the lock of an index on Windows. *)
From Coq Require Import String.
From Verif Require Import Model.Base Model.Lock Model.LockWin Spec.Str Spec.LockingWin Proof.Tactics Proof.BlotterP Proof.LockWinP.
Local Open Scope list_scope.

(** [win_users ps]: any number of users of any lock files, not started; [win_reach]: any schedule.
    Whoever has an index open, creating, appending or reading, has it alone. *)
Theorem C110_alone_partial : forall ps us i j f, win_reach (win_users ps) us -> win_in_use us i f -> win_in_use us j f -> i = j.
Proof. exact win_alone. Qed.
(** So readers are not let in together either: while one has the index open, the others wait. *)
Theorem C110_readers_share_refuted : forall f n us i j, win_reach (win_users (repeat (f, Reading) n)) us -> win_in_use us i f -> j <> i ->
  forall us', win_reach_but i us us' -> ~ win_in_use us' j f.
Proof. intros f n us i j. apply win_waits. Qed.
(** Unlock can always be done at once by who has the lock, and gives it up; so does closing the
    handle. And after that the next one can take it. *)
Theorem C110_unlocks_partial : forall us i f t, nth_error us i = Some (MkWuser f true true (win_unlock ++ t)) ->
  exists us', win_step i us us' /\ nth_error us' i = Some (MkWuser f true false t).
Proof.
  intros us i f t E. exists (upd i (MkWuser f true false t) us). split; [exact (step_at _ _ _ _ E (ws_unlock us f t))|].
  rewrite nth_error_upd, Nat.eqb_refl, E. reflexivity.
Qed.
Theorem C110_closes_partial : forall us us' i u t u', win_step i us us' -> nth_error us i = Some u -> w_todo u = WClose :: t ->
  nth_error us' i = Some u' -> w_held u' = false.
Proof.
  intros us us' i u t u' (v & v' & Ev & S & ->) Eu Et Eu'. assert (v = u) as -> by congruence.
  destruct (at_upd _ _ _ _ _ _ Ev Eu') as [(_ & ->)|(N & _)]; [|congruence]. destruct S; cbn in *; try discriminate Et; reflexivity.
Qed.
Theorem C110_released_partial : forall ps us us' i u u', win_reach (win_any ps) us -> win_step i us us' ->
  nth_error us i = Some u -> w_held u = true -> nth_error us' i = Some u' -> w_held u' = false ->
  forall j t, nth_error us' j = Some (MkWuser (w_file u) true false (win_lock ++ t)) ->
  exists us'', win_step j us' us'' /\ nth_error us'' j = Some (MkWuser (w_file u) true true t).
Proof.
  intros ps us us' i u u' R S Eu H Eu' H' j t Ej. exists (upd j (MkWuser (w_file u) true true t) us'). split.
  - apply (step_at _ _ _ _ Ej). constructor. exact (win_released ps us us' i u u' R S Eu H Eu' H').
  - rewrite nth_error_upd, Nat.eqb_refl, Ej. reflexivity.
Qed.
(** As on the other systems (C52), the lock stays taken when opening fails, now also for readers. *)
Theorem C110_failed_open_refuted : forall f k ps, exists us, win_reach (win_users ((f, k) :: ps)) us /\
  nth_error us 0 = Some (MkWuser f true true []) /\
  forall us' j v, win_reach_but 0 us us' -> j <> 0%nat -> nth_error us' j = Some v -> w_file v = f -> w_held v = false /\ ~ win_in_use us' j f.
Proof. exact win_leak. Qed.
Print Assumptions C110_alone_partial.
Print Assumptions C110_readers_share_refuted.
Print Assumptions C110_unlocks_partial.
Print Assumptions C110_closes_partial.
Print Assumptions C110_released_partial.
Print Assumptions C110_failed_open_refuted.
(** The first of any users can be in, and two readers one after the other. *)
Example C110_example : forall f k ps, exists us, win_reach (win_users ((f, k) :: ps)) us /\ win_in_use us 0 f.
Proof. intros f k ps. destruct (first_in f k ps) as (t & R). eexists. split; [exact R|]. eexists _, _. split; [reflexivity|]. split; reflexivity. Qed.
Example C110_example_released : forall f, exists us us',
  win_reach (win_users [(f, Appending); (f, Reading)]) us /\ win_step 0 us us' /\
  nth_error us 0 = Some (MkWuser f true true (win_unlock ++ [WClose])) /\ nth_error us' 0 = Some (MkWuser f true false [WClose]) /\
  nth_error us' 1 = Some (MkWuser f true false (win_lock ++ [WUse] ++ win_close)).
Proof.
  intros f. destruct (first_in f Appending [(f, Reading)]) as (t & R).
  exists [MkWuser f true true [WUnlock; WClose]; MkWuser f true false [WLock; WUse; WUnlock; WClose]], [MkWuser f true false [WClose]; MkWuser f true false [WLock; WUse; WUnlock; WClose]].
  split; [|split; [|repeat split]].
  - assert (E : win_users [(f, Appending); (f, Reading)] = [MkWuser f false false [WNew; WLock; WUse; WUnlock; WClose]; MkWuser f false false [WNew; WLock; WUse; WUnlock; WClose]]) by reflexivity. rewrite E.
    eapply wr_step with (i := 1%nat); [eapply wr_step with (i := 0%nat); [eapply wr_step with (i := 0%nat); [eapply wr_step with (i := 0%nat); [apply wr_refl|]|]|]|].
    + eexists _, _. split; [reflexivity|]. split; [apply ws_new|reflexivity].
    + eexists _, _. split; [reflexivity|]. split; [apply ws_lock|reflexivity]. intros [|[|[|j]]] v X _; inversion X; reflexivity.
    + eexists _, _. split; [reflexivity|]. split; [apply ws_done|reflexivity].
    + eexists _, _. split; [reflexivity|]. split; [apply ws_new|reflexivity].
  - eexists _, _. split; [reflexivity|]. split; [apply ws_unlock|reflexivity].
Qed.
