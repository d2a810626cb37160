(** Several indexes in one file system, worked on by any number of processes: indexer.go:42-96,
    196-233, index.go:39-76, remove.go by the paths of Model/Names. *)
From Coq Require Import String.
From Verif Require Import Model.Base Model.Path Model.Utf8 Model.Walk Model.Blotter Model.Config Model.Json Model.Index Model.Query Model.Session Model.Crash Model.Lock Model.Names Model.Self Spec.Paths.
Local Open Scope N_scope.
Local Open Scope list_scope.

(** The root in a configuration is absolute (config.go:46), so that the working directory
    does not matter to the paths that are made of it. *)
Definition dir_at (c : config) : list bytes := spec_abs [47] (cf_root c).
Definition lock_at (c : config) : list bytes := spec_abs [47] (append_lock c).
Definition file_in (c : config) (k : ifile) : list bytes := spec_abs [47] (path_of (cf_root c) k).
Definition num_files (c : config) : nat := Z.to_nat (cf_numshards c).
(** A directory is never written to as if it were a file: opening it for writing fails, and so does the session. *)
Definition writable (fs : fsys) (c : config) : Prop := forall k, In k (kinds (num_files c)) -> fs (file_in c k) <> Some Directory.
(** The files at the end of Close (indexer.go:196-233). *)
Definition put_files (c : config) (fl : files) (fs : fsys) : fsys :=
  fold_left (fun fs k => match content_at fl k with Some b => put_node (file_in c k) (File b) fs | None => fs end) (kinds (num_files c)) fs.

(** The file system, and the sessions that are under way, each with what it started from. *)
Record world := MkWorld { fs_now : fsys; under_way : list (config * result (indexer * list blotter)) }.
(** What has happened, as far as it counts for the contents of the indexes. *)
Inductive event := Created (c : config) | Finished (c : config) (docs : list (bytes * doc)) | Stopped (c : config) | Removed (c : config) | Else.
Definition busy (w : world) (c : config) : Prop := In (cf_root c) (map (fun p => cf_root (fst p)) (under_way w)).
(** [q] is the directory [p] or in it. *)
Fixpoint inside (p q : list bytes) : bool :=
  match p, q with
  | [], _ => true
  | _ :: _, [] => false
  | x :: p, y :: q => if list_eq_dec N.eq_dec x y then inside p q else false
  end.
(** The indexes that have been created and not removed, be it with a directory that they were in, and whose
    sessions have all come to their end. *)
Fixpoint alive (evs : list event) : list config :=
  match evs with
  | [] => []
  | Created c :: r => c :: alive r
  | Stopped c :: r => filter (fun c' => if list_eq_dec N.eq_dec (cf_root c) (cf_root c') then false else true) (alive r)
  | Removed c :: r => filter (fun c' => negb (inside (dir_at c) (dir_at c'))) (alive r)
  | _ :: r => alive r
  end.
(** os.RemoveAll *)
Definition remove_all (p : list bytes) (fs : fsys) : fsys := fun q => if inside p q then None else fs q.

Inductive life (u : unicode) : list event -> world -> Prop :=
  | life_start fs : life u [] (MkWorld fs [])
  (* indexer.go:42-84 *)
  | life_create evs w cwd root c fs' : life u evs w -> rooted cwd -> path_abs cwd root = cf_root c ->
      create_in (fs_now w) cwd root = (fs', Ok tt) -> writable fs' c ->
      life u (Created c :: evs) (MkWorld (put_shards (num_files c) [47] (cf_root c) fs') ((c, create_indexer c) :: under_way w))
  (* indexer.go:86-96,116-160, for an index that is not being written to. (The lock does not
     see to it that there is only one session at a time: C34, C62.) *)
  | life_append evs w cwd root c fs' x : life u evs w -> rooted cwd -> In c (alive evs) -> path_abs cwd root = cf_root c -> ~ busy w c ->
      open_indexer_in (fs_now w) cwd root = (fs', Ok x) ->
      life u (Else :: evs) (MkWorld fs' ((c, Ok x) :: under_way w))
  (* while a session is under way, its files change *)
  | life_work evs w c st fs' : life u evs w -> In (c, st) (under_way w) ->
      (forall q, (forall k, In k (kinds (num_files c)) -> q <> file_in c k) -> fs' q = fs_now w q) ->
      (forall q, fs' q = Some Directory <-> fs_now w q = Some Directory) ->
      life u (Else :: evs) (MkWorld fs' (under_way w))
  (* Add any number of times, and Close *)
  | life_finish evs fs a b c st docs dk : life u evs (MkWorld fs (a ++ (c, st) :: b)) -> session u st docs dk -> writable fs c ->
      life u (Finished c docs :: evs) (MkWorld (put_files c (files_of dk) fs) (a ++ b))
  (* index.go:39-76, successful or not; creating or opening that fails *)
  | life_read evs w sorted cwd root fs' r : life u evs w -> open_index_in sorted (fs_now w) cwd root = (fs', r) ->
      life u (Else :: evs) (MkWorld fs' (under_way w))
  | life_no_create evs w cwd root fs' e : life u evs w -> rooted cwd -> create_in (fs_now w) cwd root = (fs', Err e) ->
      life u (Else :: evs) (MkWorld fs' (under_way w))
  | life_no_append evs w cwd root fs' r : life u evs w -> open_indexer_in (fs_now w) cwd root = (fs', r) -> ~ (exists x, r = Ok x) ->
      life u (Else :: evs) (MkWorld fs' (under_way w))
  (* a session is stopped, or fails: it leaves its files as they are, and nothing more is said of this index *)
  | life_stop evs fs a b c st : life u evs (MkWorld fs (a ++ (c, st) :: b)) -> life u (Stopped c :: evs) (MkWorld fs (a ++ b))
  (* remove.go, when no session is under way in the directory *)
  | life_remove evs w c : life u evs w -> In c (alive evs) ->
      (forall c' st, In (c', st) (under_way w) -> inside (dir_at c) (dir_at c') = false) ->
      life u (Removed c :: evs) (MkWorld (remove_all (dir_at c) (fs_now w)) (under_way w))
  (* anything that does not touch the directories of the indexes, their files and their lock files *)
  | life_other evs w fs' : life u evs w ->
      (forall c, In c (alive evs) -> fs' (dir_at c) = fs_now w (dir_at c) /\ fs' (lock_at c) = fs_now w (lock_at c) /\
        forall k, In k (kinds (num_files c)) -> fs' (file_in c k) = fs_now w (file_in c k)) ->
      life u (Else :: evs) (MkWorld fs' (under_way w)).
