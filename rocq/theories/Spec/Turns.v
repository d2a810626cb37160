(** Goroutines that do not look up at the same time. *)
From Verif Require Import Model.Base Model.DmdConc.

Definition reading {A} (g : goroutine A) : bool := match g_do g with Reading _ _ => true | _ => false end.
(** Goroutine [i] may go on: no other one is in the middle of a lookup on the same open file. *)
Definition turns {A} (i : nat) (st : cstate A) : Prop :=
  forall j gi gj, nth_error (snd st) i = Some gi -> nth_error (snd st) j = Some gj -> j <> i -> g_h gj = g_h gi -> reading gj = false.
(** Each has an open file of its own. *)
Definition own_files {A} (ps : list (nat * prog A)) : Prop :=
  forall i j p q, nth_error ps i = Some p -> nth_error ps j = Some q -> fst p = fst q -> i = j.
