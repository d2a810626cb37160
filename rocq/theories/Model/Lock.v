(** lock/file.go and lock/unix.go over flock(2), and the lock operations of the functions
    that open and close an index. lock/windows.go is in Model/LockWin. *)
From Verif Require Import Model.Base Model.Path Model.Config.
Local Open Scope N_scope.

(** flock(2): LOCK_SH and LOCK_EX. *)
Inductive mode := Sh | Ex.
(** What a user of a lock file does with it; [OUse] stands for everything between taking the
    lock and giving it up. *)
Inductive lop := ONew | OFlock (m : mode) | OUse | OClose.

(** lock/file.go:24-30 *)
Definition lock_new : list lop := [ONew].
(** lock/unix.go:24-26 *)
Definition lock_lock : list lop := [OFlock Ex].
(** lock/unix.go:28-30 *)
Definition lock_unlock : list lop := [OFlock Sh].
(** lock/unix.go:32-34 *)
Definition lock_shared : list lop := [OFlock Sh].
(** lock/file.go:35-42 *)
Definition lock_close : list lop := lock_unlock ++ [OClose].

Inductive kind := Creating | Appending | Reading.
(** Creating: indexer.go:45-52 and (deferred) 197; Appending: indexer.go:120-127 and 197;
    Reading: index.go:43-49 and (deferred) 80. *)
Definition prog (k : kind) : list lop :=
  match k with
  | Creating => lock_new ++ lock_lock ++ [OUse] ++ lock_close
  | Appending => lock_new ++ lock_shared ++ [OUse] ++ lock_close
  | Reading => lock_new ++ lock_shared ++ [OUse] ++ lock_close
  end.

(** Whether a call of flock is waiting, or has failed. *)
Inductive wstate := Idle | Waiting | Failed.
(** One user: the lock file, as the names on the way to it from the root (there are no
    symbolic links, and nobody removes lock files, so names stand for inodes); whether the
    file is open; the lock held on this open file; and the operations still to be done. *)
Record user := MkUser { us_file : list bytes; us_open : bool; us_held : option mode; us_wait : wstate; us_todo : list lop }.
Definition start (f : list bytes) (p : list lop) : user := MkUser f false None Idle p.

(** A lock can be granted when it is compatible with those of all other open files. *)
Definition grantable (us : list user) (i : nat) (f : list bytes) (m : mode) : Prop :=
  forall j v, j <> i -> nth_error us j = Some v -> us_file v = f ->
  match us_held v with None => True | Some Sh => m = Sh | Some Ex => False end.
(** After a failed flock: File.Close goes on to close the handle (lock/file.go:36-37), the
    others return and leave it open. *)
Definition after_error (t : list lop) : list lop := match t with [OClose] => t | _ => [] end.

(** The steps of user [i]. *)
Inductive ustep (us : list user) (i : nat) : user -> user -> Prop :=
  (* lock/file.go:25: the file is created if need be *)
  | st_new f t : ustep us i (MkUser f false None Idle (ONew :: t)) (MkUser f true None Idle t)
  | st_new_fails f t : ustep us i (MkUser f false None Idle (ONew :: t)) (MkUser f false None Idle [])
  (* flock: nothing to do when the lock is held in this mode; otherwise a lock that is held
     is given up first (changing the mode is not atomic) *)
  | st_same f m t : ustep us i (MkUser f true (Some m) Idle (OFlock m :: t)) (MkUser f true (Some m) Idle t)
  | st_ask f h m t : h <> Some m -> ustep us i (MkUser f true h Idle (OFlock m :: t)) (MkUser f true None Waiting (OFlock m :: t))
  | st_grant f m t : grantable us i f m -> ustep us i (MkUser f true None Waiting (OFlock m :: t)) (MkUser f true (Some m) Idle t)
  | st_interrupted f m t : ustep us i (MkUser f true None Waiting (OFlock m :: t)) (MkUser f true None Failed (after_error t))
  (* the index is closed *)
  | st_done f h t : ustep us i (MkUser f true h Idle (OUse :: t)) (MkUser f true h Idle t)
  (* opening fails after the lock is taken (indexer.go:55-81, 130-158, index.go:50-74): the
     error is returned and nobody closes the lock *)
  | st_fails f h t : ustep us i (MkUser f true h Idle (OUse :: t)) (MkUser f true h Idle [])
  (* closing the handle gives up its lock *)
  | st_close f h w t : w <> Waiting -> ustep us i (MkUser f true h w (OClose :: t)) (MkUser f false None Idle t)
  (* the process exits, or the runtime finalizes a handle that nobody can use any more *)
  | st_exit f h w t : ustep us i (MkUser f true h w t) (MkUser f false None Idle []).

(** User [i] makes a step. *)
Definition lstep (i : nat) (us us' : list user) : Prop :=
  exists u u', nth_error us i = Some u /\ ustep us i u u' /\ us' = upd i u' us.
Inductive lreach : list user -> list user -> Prop :=
  | lr_refl us : lreach us us
  | lr_step us us' us'' i : lreach us us' -> lstep i us' us'' -> lreach us us''.
(** Steps of all users but [i]. *)
Inductive lreach_but (i : nat) : list user -> list user -> Prop :=
  | lb_refl us : lreach_but i us us
  | lb_step us us' us'' j : j <> i -> lreach_but i us us' -> lstep j us' us'' -> lreach_but i us us''.

(** ".lock" *)
Definition dot_lock : bytes := [46; 108; 111; 99; 107].
(** config.go:89-91 *)
Definition lock_path (root : bytes) : bytes := root ++ dot_lock.
(** indexer.go:106 and 45 with config.go:46-50 *)
Definition create_lock (cwd root : bytes) : bytes := lock_path (path_abs cwd root).
(** index.go:41-43: the root as given *)
Definition open_lock (root : bytes) : bytes := lock_path root.
(** indexer.go:87-91 and 120: the root in the configuration read from the directory *)
Definition append_lock (c : config) : bytes := lock_path (cf_root c).
