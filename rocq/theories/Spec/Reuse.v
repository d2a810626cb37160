(** What a query is measured against when its entries have been used before. *)
From Verif Require Import Model.Base Model.Index Model.Query Spec.Reading Spec.Querying.
Local Open Scope N_scope.

(** The entry [e] is what the entry [e0] has become: the documents that were in it, then
    consecutive documents of its blot. (An entry with one document may have been emptied.) *)
Definition appended (n : nat) (content : nat -> nat -> list N) (place : N -> bytes * N * N) (e0 e : blot_entry) : Prop :=
  be_blot e < N.of_nat n * 65536 /\ (2 <= length (docs_keys (be_docs e)))%nat /\
  exists old pre mid post, (old = docs_keys (be_docs e0) \/ (length (docs_keys (be_docs e0)) <= 1)%nat /\ old = []) /\
    at_blot n content (be_blot e) = pre ++ mid ++ post /\ docs_keys (be_docs e) = old ++ map place mid.
(** Entries as Go can have them. *)
Definition proper (e : blot_entry) : Prop := docs_wf (be_docs e).
(** An entry with two documents at least, as Next returns them. *)
Definition used (e : blot_entry) : Prop := proper e /\ (2 <= length (docs_keys (be_docs e)))%nat.
(** ... and with no room for another. *)
Definition full (e : blot_entry) : Prop := used e /\ docs_len (be_docs e) = docs_cap (be_docs e).
