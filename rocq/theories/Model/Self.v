(** The files that are there when the index command begins to walk (cmd/dupi/index.go:81-102): the
    indexer has been made before. *)
From Coq Require Import String.
From Verif Require Import Model.Base Model.Path Model.Walk Model.Shard Model.Crash Model.Lock Model.Names Spec.Paths.
Local Open Scope N_scope.
Local Open Scope list_scope.

(** internal/shard/indexer.go:42-59 for the shards 0 to n-1 (indexer.go:67-76): their tables as
    created, and empty posting files. dmd, files.fnm and cfg.json are not there yet. *)
Definition put_shards (n : nat) (cwd root : bytes) (fs : fsys) : fsys :=
  fold_left (fun fs i => put_node (spec_abs cwd (path_of root (FPosts i))) (File [])
                           (put_node (spec_abs cwd (path_of root (FTable i))) (File iix_created) fs)) (seq 0 n) fs.
(** indexer.go:42-84 *)
Definition start_new (n : nat) (fs : fsys) (cwd root : bytes) : fsys * result unit :=
  match create_in fs cwd root with
  | (fs, Ok _) => (put_shards n cwd (path_abs cwd root) fs, Ok tt)
  | r => r
  end.
