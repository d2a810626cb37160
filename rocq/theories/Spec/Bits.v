(** Sets of numbers as bytes, the least bit of a byte first. *)
From Verif Require Import Model.Base.
Local Open Scope N_scope.
Definition member (d : bytes) (i : nat) : bool := N.testbit (nth (i / 8) d 0) (N.of_nat (i mod 8)).
(** All members, in order. *)
Definition members (d : bytes) : list nat := filter (member d) (seq 0 (8 * length d)).
