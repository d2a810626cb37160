(** What is still held after some events. *)
From Verif Require Import Model.Base Model.Handles.

Definition held_eq (a b : held) : {a = b} + {a <> b}.
Proof. decide equality; apply Nat.eq_dec. Defined.
(** How often [h] was taken more than it was given back. *)
Fixpoint balance (h : held) (l : list event) : Z :=
  match l with
  | [] => 0
  | Take g :: l => ((if held_eq g h then 1 else 0) + balance h l)%Z
  | Give g :: l => (balance h l - (if held_eq g h then 1 else 0))%Z
  end.
Definition nothing_held (l : list event) : Prop := forall h, balance h l = 0%Z.
Definition still_held (l : list event) (h : held) : Prop := (0 < balance h l)%Z.
