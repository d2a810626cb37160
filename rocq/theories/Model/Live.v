(** An index that is open for reading while other sessions append to it, which the lock
    allows (C34). *)
From Verif Require Import Model.Base Model.Utf8 Model.Shard Model.Dmd Model.Index Model.Query Model.Session Model.Crash.
Local Open Scope N_scope.

(** OpenIndex reads the configuration, the names and the tables of the shards
    (index.go:50-71, internal/shard/index.go:35-39,115-148). dmd and the posting files stay
    open (dmd/t.go:32-40, internal/shard/index.go:40-45) and are read when a query needs them
    (dmd/t.go:50-65, internal/shard/posts.go:48-126). The sessions write to these files where
    they are (dmd/adder.go:78, internal/shard/indexer.go:75), so when the files have become
    [fs], a query of the open index [ix] works on [live ix fs]. No file is ever removed. *)
Fixpoint live_shards (xs : list shard_index) (files : list (option bytes * option bytes)) : list shard_index :=
  match xs, files with
  | x :: xs, (_, Some pos) :: r => MkShardIndex (si_heads x) (si_counts x) (si_perm x) pos :: live_shards xs r
  | x :: xs, (_, None) :: r => x :: live_shards xs r
  | _, _ => xs
  end.
Definition live (ix : index) (fs : files) : index :=
  MkIndex (ix_cfg ix) (match w_dmd fs with Some b => b | None => ix_dmd ix end) (ix_fnames ix) (live_shards (ix_shards ix) (w_shards fs)).

(** The sessions [news] (latest first) have taken the files from [dk] to [dk']. *)
Inductive since (u : unicode) (dk : disk) : list (list (bytes * doc)) -> disk -> Prop :=
  | since_none : since u dk [] dk
  | since_more news dk1 docs dk2 : since u dk news dk1 -> session u (open_indexer dk1) docs dk2 -> since u dk (docs :: news) dk2.
