(** Users of lock files on Windows. *)
From Verif Require Import Model.Base Model.Lock Model.LockWin.

(** User [i] has the index open (or is opening or closing it, with the lock taken). *)
Definition win_in_use (us : list wuser) (i : nat) (f : list bytes) : Prop :=
  exists u t, nth_error us i = Some u /\ w_todo u = WUse :: t /\ w_file u = f.
(** Users of indexes, not started yet. *)
Definition win_users (ps : list (list bytes * kind)) : list wuser := map (fun p => win_start (fst p) (win_prog (snd p))) ps.
(** Users with any programs, not started yet. *)
Definition win_any (ps : list (list bytes * list wop)) : list wuser := map (fun p => win_start (fst p) (snd p)) ps.
