(** What a query for entries with room for some documents is measured against. *)
From Verif Require Import Model.Base Model.Index Model.Query Spec.Reading Spec.Querying.
Local Open Scope N_scope.

(** An entry that is nil, or of length 0 with room for any number of documents. *)
Definition emptied (e : blot_entry) : Prop := docs_len (be_docs e) = 0%nat.
(** An entry that shows some of the documents of its blot: two at least, consecutive ones. *)
Definition excerpt (n : nat) (content : nat -> nat -> list N) (place : N -> bytes * N * N) (e : blot_entry) : Prop :=
  be_blot e < N.of_nat n * 65536 /\
  exists pre mid post, at_blot n content (be_blot e) = pre ++ mid ++ post /\ (2 <= length mid)%nat /\ docs_keys (be_docs e) = map place mid.
(** Entries that are nil, or of length 0 with room for two documents at least. *)
Definition usable (e : blot_entry) : Prop := match be_docs e with None => True | Some (len, back) => len = 0%nat /\ (2 <= length back)%nat end.
(** What a query has returned for a blot. *)
Definition returned (out : list blot_entry) (blot : N) : list (bytes * N * N) :=
  concat (map (fun e => docs_keys (be_docs e)) (filter (fun e => be_blot e =? blot) out)).
(** One entry with room for [c] documents. *)
Definition room_for (c : nat) (dst : list blot_entry) : Prop := exists e back, dst = [MkEntry e (Some (0%nat, back))] /\ length back = c.
(** The same documents are returned for the same blot by two entries. *)
Definition repeats (out : list blot_entry) : Prop := exists a e b e' c, out = a ++ e :: b ++ e' :: c /\
  be_blot e = be_blot e' /\ docs_keys (be_docs e) = docs_keys (be_docs e') /\ (2 <= length (docs_keys (be_docs e)))%nat.
