(** Some elements of a list, each at most as often as it occurs there, in their order. *)
From Coq Require Import List.
Import ListNotations.
Inductive some_of {A} : list A -> list A -> Prop :=
| some_none l : some_of [] l
| some_left x l m : some_of l m -> some_of l (x :: m)
| some_taken x l m : some_of l m -> some_of (x :: l) (x :: m).
