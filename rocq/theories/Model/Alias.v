(** Who reads a document's data when: indexer.go:235-244 (Add) and shatter.go:35-57,94-113. Add
    sends the slice doc.Dat to a worker, not a copy of it; the worker reads it later. This
    is about the data only; order, ids and shards are in Model/Conc. *)
From Verif Require Import Model.Base Model.Index.
Local Open Scope N_scope.

(** The caller's slices are numbered; [heap] has their contents. The caller adds documents
    and sets bytes of its slices. *)
Inductive cop := CAdd (b : nat) | CSet (b i : nat) (x : N).
Definition heap_set (b i : nat) (x : N) (h : list bytes) : list bytes :=
  match nth_error h b with None => h | Some d => upd b (upd i x d) h end.
(** A worker waits for a request (shatter.go:46), or has read the first bytes [got] of the
    slice [b] of document [did]. (It goes over the data more than once: utf8.Valid, the
    tokenizer, the blotter. One reading is enough to show what can happen.) *)
Inductive reader := RIdle | RRead (did : N) (b : nat) (got : bytes).
Record astate := MkA {
  al_heap : list bytes;
  al_todo : list cop;              (* what the caller is going to do *)
  al_next : N;                     (* the id of the next document *)
  al_readers : list reader;
  al_seen : list (N * bytes) }.    (* the data that documents were read with *)
Inductive astep : astate -> astate -> Prop :=
  (* the caller is outside of Add and does what it likes *)
  | a_set h b i x t nx rs l : astep (MkA h (CSet b i x :: t) nx rs l) (MkA (heap_set b i x h) t nx rs l)
  (* indexer.go:242 with shatter.go:35,46: the channel is not buffered, Add returns once a
     worker has the request *)
  | a_add h b t nx rs l k : nth_error rs k = Some RIdle ->
      astep (MkA h (CAdd b :: t) nx rs l) (MkA h t (nx + 1) (upd k (RRead nx b []) rs) l)
  | a_read h t nx rs l k did b got d x : nth_error rs k = Some (RRead did b got) ->
      nth_error h b = Some d -> nth_error d (length got) = Some x ->
      astep (MkA h t nx rs l) (MkA h t nx (upd k (RRead did b (got ++ [x])) rs) l)
  | a_done h t nx rs l k did b got d : nth_error rs k = Some (RRead did b got) ->
      nth_error h b = Some d -> length got = length d ->
      astep (MkA h t nx rs l) (MkA h t nx (upd k RIdle rs) (l ++ [(did, got)])).
Inductive asteps : astate -> astate -> Prop :=
  | as_refl s : asteps s s
  | as_step s s' s'' : asteps s s' -> astep s' s'' -> asteps s s''.
(** [n] workers *)
Definition astart (h : list bytes) (prog : list cop) (n : nat) : astate := MkA h prog 1 (repeat RIdle n) [].

(** What Add leaves of the caller's document (indexer.go:241,251). *)
Definition doc_after_add (d : doc) : doc := MkDoc [] (d_start d) (d_end d) (d_dat d).
