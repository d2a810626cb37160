(** lock/file.go and lock/windows.go over LockFileEx and UnlockFileEx. *)
From Verif Require Import Model.Base Model.Lock.

Inductive wop := WNew | WLock | WUse | WUnlock | WClose.
(** lock/file.go:24-30 *)
Definition win_new : list wop := [WNew].
(** lock/windows.go:30-34: LOCKFILE_EXCLUSIVE_LOCK for all bytes, and without LOCKFILE_FAIL_IMMEDIATELY *)
Definition win_lock : list wop := [WLock].
(** lock/windows.go:36-40 *)
Definition win_unlock : list wop := [WUnlock].
(** lock/windows.go:42-44 *)
Definition win_shared : list wop := win_lock.
(** lock/file.go:35-42 *)
Definition win_close : list wop := win_unlock ++ [WClose].
(** As [Model.Lock.prog]: indexer.go:45-52, 120-127, 197, index.go:43-49, 80. *)
Definition win_prog (k : kind) : list wop :=
  match k with
  | Creating => win_new ++ win_lock ++ [WUse] ++ win_close
  | Appending => win_new ++ win_shared ++ [WUse] ++ win_close
  | Reading => win_new ++ win_shared ++ [WUse] ++ win_close
  end.

(** One user: the lock file, whether its handle is open, whether the handle has the lock, and
    the operations still to be done. *)
Record wuser := MkWuser { w_file : list bytes; w_open : bool; w_held : bool; w_todo : list wop }.
Definition win_start (f : list bytes) (p : list wop) : wuser := MkWuser f false false p.
(** LockFileEx waits while any handle has the file locked, also if it is its own. *)
Definition unlocked (us : list wuser) (f : list bytes) : Prop :=
  forall j v, nth_error us j = Some v -> w_file v = f -> w_held v = false.
(** After an error: File.Close goes on to close the handle, the others return and leave it open. *)
Definition win_after_error (t : list wop) : list wop := match t with [WClose] => t | _ => [] end.

Inductive wstep (us : list wuser) : wuser -> wuser -> Prop :=
  | ws_new f t : wstep us (MkWuser f false false (WNew :: t)) (MkWuser f true false t)
  | ws_new_fails f t : wstep us (MkWuser f false false (WNew :: t)) (MkWuser f false false [])
  | ws_lock f h t : unlocked us f -> wstep us (MkWuser f true h (WLock :: t)) (MkWuser f true true t)
  | ws_lock_fails f h t : wstep us (MkWuser f true h (WLock :: t)) (MkWuser f true h (win_after_error t))
  | ws_unlock f t : wstep us (MkWuser f true true (WUnlock :: t)) (MkWuser f true false t)
  (* also ERROR_NOT_LOCKED *)
  | ws_unlock_fails f h t : wstep us (MkWuser f true h (WUnlock :: t)) (MkWuser f true h (win_after_error t))
  (* the index is closed *)
  | ws_done f h t : wstep us (MkWuser f true h (WUse :: t)) (MkWuser f true h t)
  (* opening fails after the lock is taken: the error is returned and nobody closes the lock *)
  | ws_fails f h t : wstep us (MkWuser f true h (WUse :: t)) (MkWuser f true h [])
  (* closing the handle gives up its lock *)
  | ws_close f h t : wstep us (MkWuser f true h (WClose :: t)) (MkWuser f false false t)
  (* the process exits, or the runtime finalizes a handle that nobody can use any more *)
  | ws_exit f h t : wstep us (MkWuser f true h t) (MkWuser f false false []).
Definition win_step (i : nat) (us us' : list wuser) : Prop :=
  exists u u', nth_error us i = Some u /\ wstep us u u' /\ us' = upd i u' us.
Inductive win_reach : list wuser -> list wuser -> Prop :=
  | wr_refl us : win_reach us us
  | wr_step us us' us'' i : win_reach us us' -> win_step i us' us'' -> win_reach us us''.
(** Steps of all users but [i]. *)
Inductive win_reach_but (i : nat) : list wuser -> list wuser -> Prop :=
  | wb_refl us : win_reach_but i us us
  | wb_step us us' us'' j : j <> i -> win_reach_but i us us' -> win_step j us' us'' -> win_reach_but i us us''.
