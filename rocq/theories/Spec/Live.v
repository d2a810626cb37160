(** Paths that an index knows. *)
From Verif Require Import Model.Base Model.Index Spec.Paths Spec.History.
Local Open Scope N_scope.

(** The path of [p] is the path of one of [docs] or a directory on the way to it. *)
Definition known (docs : list (bytes * doc)) (p : bytes * doc) : Prop :=
  exists q suf, In q docs /\ tree_path q = tree_path p ++ suf.
(** The document number [d]. *)
Definition doc_at (docs : list (bytes * doc)) (d : N) (p : bytes * doc) : Prop := nth_error docs (N.to_nat (d - 1)) = Some p.
