(** The names of the files of an index, and its files among all others: config.go:85-107,
    internal/shard/indexer.go:46,90, internal/shard/index.go:115-117, dmd/adder.go:33, dmd/t.go:33,
    lock/file.go:24-30. *)
From Coq Require Import String.
From Verif Require Import Model.Base Model.Path Model.Walk Model.Blotter Model.Config Model.Json Model.Index Model.Query Model.Session Model.Crash Model.Lock Spec.Str Spec.Paths.
Local Open Scope N_scope.
Local Open Scope list_scope.

(** The files in the directory of an index. The table of a shard is "b%d.pos.iix": IixPath
    (config.go:101-103) is not called. *)
Inductive ifile := FConfig | FDmd | FNames | FPosts (i : nat) | FTable (i : nat).
Definition path_of (root : bytes) (k : ifile) : bytes :=
  match k with
  | FConfig => join_path root (bs "cfg.json")                                      (* config.go:85-87 *)
  | FDmd => join_path root (bs "dmd")                                              (* dmd/adder.go:33, dmd/t.go:33 *)
  | FNames => join_path root (bs "files.fnm")                                      (* config.go:97-99 *)
  | FPosts i => join_path root (bs "b" ++ digits 20 (N.of_nat i) ++ bs ".pos")     (* config.go:105-107 *)
  | FTable i => join_path root (bs "b" ++ digits 20 (N.of_nat i) ++ bs ".pos") ++ bs ".iix"
  end.

(** A file system: what is at a place, given by the names on the way to it. There are no links, no
    permissions, and what ".." leads back from is there (so that [spec_abs] says which place a
    path names). *)
Inductive node := File (dat : bytes) | Directory.
Definition fsys := list bytes -> option node.
Definition same_place (p q : list bytes) : bool := if list_eq_dec (list_eq_dec N.eq_dec) p q then true else false.
Definition put_node (p : list bytes) (x : node) (fs : fsys) : fsys := fun q => if same_place p q then Some x else fs q.
Definition has_parent (fs : fsys) (p : list bytes) : bool :=
  match p with [] => false | _ => match fs (removelast p) with Some Directory => true | _ => false end end.
(** lock/file.go:24-30: os.OpenFile with O_RDWR, O_CREATE and O_TRUNC. Truncating is done
    before the lock is asked for. *)
Definition lock_file (fs : fsys) (p : list bytes) : option fsys :=
  match fs p with
  | Some Directory => None
  | Some (File _) => Some (put_node p (File []) fs)
  | None => if has_parent fs p then Some (put_node p (File []) fs) else None
  end.
(** os.Mkdir *)
Definition make_dir (fs : fsys) (p : list bytes) : option fsys :=
  match fs p with
  | Some _ => None
  | None => if has_parent fs p then Some (put_node p Directory fs) else None
  end.
Definition read_at (fs : fsys) (p : list bytes) : option bytes := match fs p with Some (File d) => Some d | _ => None end.

(** The files of the index with root [root], with [n] shards *)
Definition files_at (n : nat) (fs : fsys) (cwd root : bytes) : files :=
  let at_ k := read_at fs (spec_abs cwd (path_of root k)) in
  MkFiles (at_ FConfig) (at_ FDmd) (at_ FNames) (map (fun i => (at_ (FTable i), at_ (FPosts i))) (seq 0 n)).
(** The files of an index with [n] shards, and what is in them. *)
Definition kinds (n : nat) : list ifile := [FConfig; FDmd; FNames] ++ map FTable (seq 0 n) ++ map FPosts (seq 0 n).
Definition content_at (fl : files) (k : ifile) : option bytes :=
  match k with
  | FConfig => w_cfg fl
  | FDmd => w_dmd fl
  | FNames => w_fnames fl
  | FTable i => fst (nth i (w_shards fl) (None, None))
  | FPosts i => snd (nth i (w_shards fl) (None, None))
  end.
(** How many shards the configuration in the directory [root] tells. *)
Definition shards_at_root (fs : fsys) (cwd root : bytes) : nat :=
  match Json.read_config (read_at fs (spec_abs cwd (path_of root FConfig))) with Ok c => Z.to_nat (cf_numshards c) | _ => 0 end.

(** index.go:39-76; the lock is free *)
Definition open_index_in (sorted : list N -> list nat) (fs : fsys) (cwd root : bytes) : fsys * result index :=
  match lock_file fs (spec_abs cwd (open_lock root)) with
  | None => (fs, Err EOther)
  | Some fs => let dir := path_abs cwd root in
      (fs, open_files sorted (files_at (shards_at_root fs cwd dir) fs cwd) dir)
  end.
(** indexer.go:86-96,116-160: the configuration is read before the lock is taken *)
Definition open_indexer_in (fs : fsys) (cwd root : bytes) : fsys * result (indexer * list blotter) :=
  let dir := path_abs cwd root in
  match Json.read_config (read_at fs (spec_abs cwd (path_of dir FConfig))) with
  | Ok c =>
      match lock_file fs (spec_abs cwd (append_lock c)) with
      | None => (fs, Err EOther)
      | Some fs => (fs, open_indexer_files (files_at (shards_at_root fs cwd dir) fs cwd) dir)
      end
  | Err e => (fs, Err e)
  | Panic => (fs, Panic)
  | Loop => (fs, Loop)
  end.
(** indexer.go:42-57: the lock and the directory *)
Definition create_in (fs : fsys) (cwd root : bytes) : fsys * result unit :=
  match lock_file fs (spec_abs cwd (create_lock cwd root)) with
  | None => (fs, Err EOther)
  | Some fs =>
      match make_dir fs (spec_abs cwd (path_abs cwd root)) with
      | None => (fs, Err EOther)
      | Some fs => (fs, Ok tt)
      end
  end.
