(** Byte strings written as Coq string literals, for examples. *)
From Coq Require Import String Ascii.
From Verif Require Import Model.Base.
Fixpoint bs (s : string) : bytes :=
  match s with EmptyString => [] | String c r => N_of_ascii c :: bs r end.
Definition no_unicode : N -> bool := fun _ => false.
