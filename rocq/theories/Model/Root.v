(** Where an index is found and what is removed with it: config.go (ReadConfigFromRoot) and
    remove.go, over the index directories of a file system. *)
From Verif Require Import Model.Base Model.Path Model.Config Model.Index Model.Query Model.Session Model.Crash.
Local Open Scope N_scope.

(** config.go:109-115 with 44-50 and 85-87: the directory is made absolute before cfg.json in
    it is read; index.go:39-76 and indexer.go:86-96. [dirs]: the files of the directory with
    a given cleaned absolute path. *)
Definition open_index_at (sorted : list N -> list nat) (dirs : bytes -> files) (cwd root : bytes) : result index :=
  open_files sorted dirs (path_abs cwd root).
Definition open_indexer_at (dirs : bytes -> files) (cwd root : bytes) :=
  open_indexer_files dirs (path_abs cwd root).

(** A directory without any file of an index, or no directory. *)
Definition no_files : files := MkFiles None None None [].
(** Is [p] the directory [dir] or inside of it? Both are cleaned absolute paths. *)
Fixpoint has_prefix (pre p : bytes) : bool :=
  match pre, p with
  | [], _ => true
  | a :: pre', b :: p' => (a =? b) && has_prefix pre' p'
  | _, [] => false
  end.
Definition is_below (dir p : bytes) : bool :=
  eq_bytes dir p || has_prefix (match dir with [_] => dir | _ => dir ++ [sep] end) p.
(** os.RemoveAll (its errors are not modelled) *)
Definition remove_all (dir : bytes) (dirs : bytes -> files) : bytes -> files :=
  fun p => if is_below dir p then no_files else dirs p.
(** remove.go:19-26; the root is that of the configuration (index.go:96-98). Close changes no
    file (index.go:78-94). The lock is given back before anything is removed; the lock file
    stays. *)
Definition remove_index (ix : index) (dirs : bytes -> files) := remove_all (cf_root (ix_cfg ix)) dirs.
(** remove.go:28-35; Close writes only files below the root (indexer.go:196-233, 175-177), which
    are then removed. *)
Definition remove_indexer (x : indexer) (dirs : bytes -> files) := remove_all (cf_root (x_cfg x)) dirs.
