(** * Numbers written with too many bytes

    A number in the files is bytes of 7 bits, each but the last with its top bit set; ten
    bytes hold 64 bits, so that the tenth can only be 0 or 1. *)
From Coq Require Import List NArith.
Import ListNotations.
Open Scope N_scope.

Definition overlong (l : list N) : Prop :=
  exists a ys y b, l = a ++ ys ++ y :: b /\ List.length ys = 9%nat /\ Forall (fun c => 128 <= c) ys /\ 2 <= y.
