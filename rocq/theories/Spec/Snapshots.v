(** The contents of the slices at the time of each Add. *)
From Verif Require Import Model.Base Model.Alias.
Local Open Scope N_scope.

Fixpoint snapshots (h : list bytes) (prog : list cop) : list (option bytes) :=
  match prog with
  | [] => []
  | CAdd b :: t => nth_error h b :: snapshots h t
  | CSet b i x :: t => snapshots (heap_set b i x h) t
  end.
(** No slice is written to after it was added. *)
Fixpoint untouched (prog : list cop) : Prop :=
  match prog with
  | [] => True
  | CAdd b :: t => (forall i x, ~ In (CSet b i x) t) /\ untouched t
  | CSet _ _ _ :: t => untouched t
  end.
