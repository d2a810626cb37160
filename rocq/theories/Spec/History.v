(** What an index is supposed to hold after a history of sessions. *)
From Verif Require Import Model.Base Model.Utf8 Model.Token Model.Blotter Model.Index Spec.Text Spec.Fingerprint Spec.Paths.
Local Open Scope N_scope.

(** The documents of all sessions (latest session first), in the order they were added. *)
Definition all_docs (ss : list (list (bytes * doc))) : list (bytes * doc) := concat (rev ss).

(** Added in some absolute working directory, with start and end in range. *)
Definition doc_ok (p : bytes * doc) : Prop := rooted (fst p) /\ d_start (snd p) < 2 ^ 32 /\ d_end (snd p) < 2 ^ 32.
(** The length of all cleaned absolute paths together. *)
Fixpoint path_room (docs : list (bytes * doc)) : N :=
  match docs with [] => 0 | p :: r => nlen (show_abs (spec_abs (fst p) (d_path (snd p)))) + path_room r end.
(** Document ids and path ids are 32 bits wide. *)
Record docs_fit (docs : list (bytes * doc)) : Prop := {
  df_ok : Forall doc_ok docs;
  df_len : nlen docs < 2 ^ 32 - 1;
  df_room : path_room docs < 2 ^ 32 - 1 }.

(** The words of the documents (those the tokenizer keeps, Spec/Text). *)
Definition words_of (word : N -> bool) (docs : list (bytes * doc)) (wss : list (list bytes)) : Prop :=
  Forall2 (fun p ws => doc_words word (d_dat (snd p)) ws) docs wss.

(** One of the blots of the words [ws] is [q] modulo n*65536. *)
Definition has_blot (H : bytes -> N) (k m n : nat) (ws : list bytes) (q : N) : bool :=
  existsb (fun b => b mod (N.of_nat n * 65536) =? q) (spec_blots H k m ws).
(** The numbers of the documents that have it, counting from [last + 1]; [wss] are the words
    of the documents. *)
Fixpoint carriers (H : bytes -> N) (k m n : nat) (last : N) (wss : list (list bytes)) (q : N) : list N :=
  match wss with
  | [] => []
  | ws :: r => (if has_blot H k m n ws q then [last + 1] else []) ++ carriers H k m n (last + 1) r q
  end.
(** Cleaned path, start and end of the document number [d]. *)
Definition place_of (docs : list (bytes * doc)) (d : N) : bytes * N * N :=
  match nth_error docs (N.to_nat (d - 1)) with
  | Some (cwd, x) => (show_abs (spec_abs cwd (d_path x)), d_start x, d_end x)
  | None => ([], 0, 0)
  end.

(** The directories and files on the way to a document ("/" itself is filed under an empty
    name), and all of them, the root included. *)
Definition tree_path (p : bytes * doc) : list bytes :=
  match spec_abs (fst p) (d_path (snd p)) with [] => [[]] | cs => cs end.
Definition prefixes {A} (l : list A) : list (list A) := map (fun i => firstn i l) (seq 0 (S (length l))).
Definition tree_nodes (docs : list (bytes * doc)) : list (list bytes) :=
  nodup (list_eq_dec (list_eq_dec N.eq_dec)) ([] :: concat (map (fun p => prefixes (tree_path p)) docs)).
(** The different pairs of a document and a blot modulo n*65536. *)
Fixpoint pairs (H : bytes -> N) (k m n : nat) (wss : list (list bytes)) : N :=
  match wss with
  | [] => 0
  | ws :: r => nlen (nodup N.eq_dec (map (fun b => b mod (N.of_nat n * 65536)) (spec_blots H k m ws))) + pairs H k m n r
  end.
(** What slot [b] of shard [s] is to hold. *)
Definition held (H : bytes -> N) (k m n : nat) (wss : list (list bytes)) (s b : nat) : list N :=
  carriers H k m n 0 wss (N.of_nat b * N.of_nat n + N.of_nat s).
