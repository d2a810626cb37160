(** Users of lock files. *)
From Verif Require Import Model.Base Model.Lock Spec.Paths.
Local Open Scope N_scope.

(** User [i] has the index open (or is opening or closing it, with the lock taken). *)
Definition in_use (us : list user) (i : nat) : Prop :=
  exists u t, nth_error us i = Some u /\ us_todo u = OUse :: t.
Definition file_of (us : list user) (i : nat) : option (list bytes) := option_map us_file (nth_error us i).
(** Users of indexes, not started yet. *)
Definition users (ps : list (list bytes * kind)) : list user := map (fun p => start (fst p) (prog (snd p))) ps.
(** Users with any programs, not started yet. *)
Definition any_users (ps : list (list bytes * list lop)) : list user := map (fun p => start (fst p) (snd p)) ps.
(** The file a path names. *)
Definition file_at (cwd path : bytes) : list bytes := spec_abs cwd path.
(** A file name that is not special to the file system. *)
Definition plain_name (c : bytes) : Prop := c <> [] /\ ~ In 47 c /\ c <> [46] /\ c <> [46; 46].
