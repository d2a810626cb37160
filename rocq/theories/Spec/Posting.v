(** The posts that shard [j] of [n] is to receive, in order: document by document, each with
    the next id, the parts of its blots that belong to the shard. *)
From Verif Require Import Model.Base Model.Post Spec.Fingerprint.
Local Open Scope N_scope.

Fixpoint posts_for (H : bytes -> N) (k m n : nat) (j : nat) (last : N) (docs : list (list bytes)) : list post :=
  match docs with
  | [] => []
  | ws :: r =>
      map (post_make (last + 1)) (shard_part (N.of_nat n) (N.of_nat j) (spec_blots H k m ws)) ++
      posts_for H k m n j (last + 1) r
  end.
