(** The machine stops (a power failure) after sessions that appended to an index. *)
From Verif Require Import Model.Base Model.Shard Model.Dmd Model.Config Model.Json Model.Index Model.Session Model.Crash.
Local Open Scope N_scope.

(** Nothing in the code asks for what it has written to be kept (there is no Sync); only the
    posting files, when appended to, are opened with O_SYNC (internal/shard/indexer.go:75), so
    that their writes are on the disk when they return. Of every other file the disk may
    still have what was there before the sessions (indexer.go:163-171, dmd/adder.go:77-97,
    internal/shard/indexer.go:120-145; config.go:140-160 writes what was there). Here each of them is as it was
    before or as it is now; for files cut short see [shortened] (Spec/Shortened), for parts of
    a file that are old there is no model.

    [olddmd], [oldnames], [oldtab i]: dmd, files.fnm and the table of shard i are as they were
    when the index was [dk]; all else is as in [dk']. *)
Fixpoint shards_after (oldtab : nat -> bool) (i : nat) (old new : list (bytes * bytes)) : list (bytes * bytes) :=
  match old, new with
  | (t0, _) :: old, (t1, p1) :: new => (if oldtab i then t0 else t1, p1) :: shards_after oldtab (S i) old new
  | _, _ => []
  end.
Definition disk_after (olddmd oldnames : bool) (oldtab : nat -> bool) (dk dk' : disk) : disk :=
  MkDisk (k_cfg dk') (if olddmd then k_dmd dk else k_dmd dk') (if oldnames then k_fnames dk else k_fnames dk')
    (shards_after oldtab 0 (k_shards dk) (k_shards dk')).
Definition files_after (olddmd oldnames : bool) (oldtab : nat -> bool) (dk dk' : disk) : files := files_of (disk_after olddmd oldnames oldtab dk dk').
