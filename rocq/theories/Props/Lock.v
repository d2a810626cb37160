(** C33-C35, C52: the lock of an index. *)
From Coq Require Import String.
From Verif Require Import Model.Base Model.Path Model.Config Model.Lock Spec.Str Spec.Paths Spec.Locking Proof.LockP Proof.LockP2.
Local Open Scope N_scope.
Local Open Scope list_scope.

(** [users ps]: any number of users of any lock files, not started; [lreach]: any schedule. *)
Theorem C33_create_excludes : forall ps us i f, lreach (users ps) us -> nth_error ps i = Some (f, Creating) -> in_use us i ->
  forall j v, j <> i -> nth_error us j = Some v -> us_file v = f -> us_held v = None /\ ~ in_use us j.
Proof. exact create_excludes. Qed.
(** Users that do not create wait for nobody but creators ... *)
Theorem C33_shared_waits_for_creators_only : forall ps us i f w t, lreach (users ps) us ->
  nth_error us i = Some (MkUser f true None w (OFlock Sh :: t)) ->
  (forall j v, nth_error ps j = Some (f, Creating) -> nth_error us j = Some v -> us_held v <> Some Ex) ->
  grantable us i f Sh.
Proof. exact shared_waits_for_creator. Qed.
(** ... and any number of them can be in. *)
Theorem C33_readers_together : forall f n, exists us, lreach (users (repeat (f, Reading) n)) us /\ forall i, (i < n)%nat -> in_use us i.
Proof. exact readers_together. Qed.
(** A root whose last component is an ordinary name has one lock file, whoever opens it. *)
Theorem C33_same_lock_file : forall cwd pre name, rooted cwd -> (pre = [] \/ exists x, pre = x ++ [47]) -> plain_name name ->
  file_at cwd (open_lock (pre ++ name)) = file_at cwd (create_lock cwd (pre ++ name)).
Proof. exact same_lock_file. Qed.
(** But a root with a slash at the end does not: a reader is not kept out. *)
Theorem C33_trailing_slash_refuted : let cwd := bs "/d" in
  file_at cwd (bs "x/") = file_at cwd (bs "x") /\
  let ps := [(file_at cwd (create_lock cwd (bs "x/")), Creating); (file_at cwd (open_lock (bs "x/")), Reading)] in
  exists us, lreach (users ps) us /\ in_use us 0 /\ in_use us 1.
Proof. exact other_lock_both. Qed.
Print Assumptions C33_create_excludes.
Print Assumptions C33_shared_waits_for_creators_only.
Print Assumptions C33_readers_together.
Print Assumptions C33_same_lock_file.
Print Assumptions C33_trailing_slash_refuted.
Example C33_example : exists us, lreach (users [([bs "x.lock"], Creating); ([bs "x.lock"], Reading)]) us /\ in_use us 0.
Proof. apply creator_in. Qed.
Example C33_example_path : file_at (bs "/d") (open_lock (bs "e/../x")) = [bs "d"; bs "x.lock"] /\ bs "e/../x" = (bs "e/.." ++ [47]) ++ bs "x" /\ plain_name (bs "x").
Proof.
  split; [reflexivity|]. split; [reflexivity|]. split; [discriminate|]. split; [|split; discriminate]. intros [H|[]]. discriminate.
Qed.

(** C34: appenders take a shared lock. *)
Theorem C34_append_excludes_refuted : forall f ks, ~ In Creating ks ->
  exists us, lreach (users (map (pair f) ks)) us /\ forall i, (i < List.length ks)%nat -> in_use us i.
Proof. exact shared_together. Qed.
Theorem C34_append_excludes_partial : forall ps us i f, lreach (users ps) us -> nth_error ps i = Some (f, Appending) -> in_use us i ->
  forall j, nth_error ps j = Some (f, Creating) -> ~ in_use us j.
Proof. exact append_excludes_create. Qed.
Print Assumptions C34_append_excludes_refuted.
Print Assumptions C34_append_excludes_partial.
Example C34_example : ~ In Creating [Appending; Appending; Reading].
Proof. cbn. intuition discriminate. Qed.

(** C35: users may do anything with their lock files here. *)
Theorem C35_unlock_releases_refuted : forall ps us us' i u u' t, lreach (any_users ps) us -> lreach us us' ->
  nth_error us i = Some u -> us_todo u = lock_unlock ++ t ->
  nth_error us' i = Some u' -> us_todo u' = t -> us_open u' = true -> us_wait u' = Idle ->
  us_held u' = Some Sh /\
  forall us'' j v, lreach_but i us' us'' -> j <> i -> nth_error us'' j = Some v -> us_file v = us_file u ->
    us_held v <> Some Ex /\ ~ grantable us'' j (us_file u) Ex.
Proof. exact unlock_keeps. Qed.
Theorem C35_close_releases_partial : forall us us' i u t u', lstep i us us' -> nth_error us i = Some u -> us_todo u = OClose :: t ->
  nth_error us' i = Some u' -> us_held u' = None /\
  forall j m, (forall l v, l <> i -> l <> j -> nth_error us' l = Some v -> us_file v = us_file u -> us_held v = None) ->
    grantable us' j (us_file u) m.
Proof. exact close_releases. Qed.
Print Assumptions C35_unlock_releases_refuted.
Print Assumptions C35_close_releases_partial.
Example C35_example : forall f, exists us us' u u' t,
  lreach (any_users [(f, lock_new ++ lock_lock ++ lock_unlock); (f, lock_new ++ lock_lock)]) us /\ lreach us us' /\
  nth_error us 0 = Some u /\ us_todo u = lock_unlock ++ t /\
  nth_error us' 0 = Some u' /\ us_todo u' = t /\ us_open u' = true /\ us_wait u' = Idle.
Proof. exact unlock_happens. Qed.

(** C52: when opening fails after the lock was taken, the lock stays taken. *)
Theorem C52_failed_create_releases_refuted : forall f ps,
  exists us u, lreach (users ((f, Creating) :: ps)) us /\ nth_error us 0 = Some u /\ us_file u = f /\ us_todo u = [] /\ us_wait u = Idle /\
  forall us' j v, lreach_but 0 us us' -> j <> 0%nat -> nth_error us' j = Some v -> us_file v = f -> us_held v = None /\ ~ in_use us' j.
Proof. exact leak_locks_out. Qed.
Theorem C52_exit_releases_partial : forall us us' i u u', lstep i us us' -> nth_error us i = Some u -> us_open u = true ->
  nth_error us' i = Some u' -> us_open u' = false -> us_held u' = None.
Proof. exact exit_releases. Qed.
Print Assumptions C52_failed_create_releases_refuted.
Print Assumptions C52_exit_releases_partial.
