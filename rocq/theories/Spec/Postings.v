(** What a posting list is supposed to contain, independent of the model of the shard. *)
From Verif Require Import Model.Base Model.Post.
Local Open Scope N_scope.

(** Consecutive repetitions removed. *)
Fixpoint squeeze (l : list N) : list N :=
  match l with
  | [] => []
  | x :: r => match r with
              | [] => [x]
              | y :: _ => if x =? y then squeeze r else x :: squeeze r
              end
  end.

(** The document ids of the posts whose blot falls into slot [s] (its low 16 bits), in
    order. *)
Definition posted (s : nat) (ps : list post) : list N :=
  map post_docid (filter (fun p => post_blot p mod 65536 =? N.of_nat s) ps).
