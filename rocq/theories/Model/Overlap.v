(** Two appending sessions at a time, which the lock allows (C34). *)
From Verif Require Import Model.Base Model.Utf8 Model.Shard Model.Dmd Model.Index Model.Session.
Local Open Scope N_scope.

(** indexer.go:116-160 reads the files at the opening; the later writes go to the files as
    they are then: dmd is opened for appending (dmd/adder.go:78), the posting files stay
    open (internal/shard/indexer.go:75) and chunks go to their ends (internal/shard/poster.go:152-169), and
    files.fnm and the tables are written anew. So an indexer that finds the files changed to
    [dk] since its opening keeps the state it has read. *)
Fixpoint behind_shards (xs : list shard) (files : list (bytes * bytes)) : list shard :=
  match xs, files with
  | x :: xs, (_, pos) :: r => MkShard (x_ind x) pos :: behind_shards xs r
  | _, _ => xs
  end.
Definition behind (x : indexer) (dk : disk) : indexer :=
  MkIndexer (x_cfg x) (fst (x_dmds x), k_dmd dk) (x_fnames x) (behind_shards (x_shards x) (k_shards dk)).

(** Two sessions are opened, then the first adds its documents and closes, then the other. *)
Inductive overlap (u : unicode) (dk : disk) (docs1 docs2 : list (bytes * doc)) : disk -> Prop :=
  Overlap x ws dk1 dk2 : open_indexer dk = Ok (x, ws) ->
    session u (Ok (x, ws)) docs1 dk1 -> session u (Ok (behind x dk1, ws)) docs2 dk2 ->
    overlap u dk docs1 docs2 dk2.
