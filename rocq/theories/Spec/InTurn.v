(** Answers one after the other. *)
From Verif Require Import Model.Base Model.Query.

(** The entries [es] from the read with the number [lo] up to that with the number [hi]: each
    is an [answer] that begins at some read after those of the entries before it. A document
    of an entry takes one read at least. *)
Fixpoint in_turn (answer : nat -> blot_entry -> Prop) (lo : nat) (es : list blot_entry) (hi : nat) : Prop :=
  match es with
  | [] => lo <= hi
  | e :: es => exists s, lo <= s /\ answer s e /\ in_turn answer (s + docs_len (be_docs e)) es hi
  end.
