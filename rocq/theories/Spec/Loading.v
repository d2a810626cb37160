(** What the documents of queries are to be searched in. *)
From Verif Require Import Model.Base Model.Index Model.Query Spec.Querying Spec.History Spec.Stretch.
Local Open Scope N_scope.

(** No document of the array has a text yet. *)
Definition no_text (back : list doc) : Prop := Forall (fun d => d_dat d = []) back.
(** The documents in [after] have the texts that the same places had in [before]: none if it
    was nil. *)
Definition texts_kept (before after : docs) : Prop :=
  match before with
  | None => no_text (docs_list after)
  | Some (_, back) => exists len back', after = Some (len, back') /\ map d_dat back' = map d_dat back
  end.
(** Entry by entry. *)
Definition entries_kept (before after : list blot_entry) : Prop := Forall2 (fun e e' => texts_kept (be_docs e) (be_docs e')) before after.
(** The bytes of [content] from [start] to [end_]. *)
Definition between (content : bytes) (start end_ : N) : bytes := firstn (N.to_nat (end_ - start)) (skipn (N.to_nat start) content).
(** An entry that is nil, or empty with room for documents that have no text yet. *)
Definition fresh (e : blot_entry) : Prop := match be_docs e with None => True | Some (len, back) => len = 0%nat /\ no_text back end.
(** Every document is in its file with the text it was indexed with. *)
Definition in_place (fs : bytes -> option bytes) (docs : list (bytes * doc)) : Prop :=
  forall i cwd x, nth_error docs i = Some (cwd, x) ->
    d_start x + nlen (d_dat x) < 2 ^ 32 /\ in_file fs (place_of docs (N.of_nat (S i))) (d_dat x).
