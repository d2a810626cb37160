(** Sessions that add something. *)
From Verif Require Import Model.Base Model.Index.

Definition busy (docs : list (bytes * doc)) : bool := match docs with [] => false | _ => true end.
(** The sessions of a history without those that add nothing. *)
Definition busy_sessions (ss : list (list (bytes * doc))) : list (list (bytes * doc)) := filter busy ss.
