(** Whole sessions: indexer.go (create, open for appending, Add, Close) and index.go
    (OpenIndex, Stats), over the files of an index. The configuration file is its record
    here; its JSON encoding is in Model/Json. Locks are in Model/Lock, stopping half-way in
    Model/Crash. *)
From Verif Require Import Model.Base Model.Utf8 Model.Token Model.Blotter Model.Post Model.Shatter Model.Shard Model.Dmd Model.Fnames Model.Conc Model.Config Model.Run Model.Index Model.Query.
Local Open Scope N_scope.

(** The files in the directory of an index: cfg.json, dmd, files.fnm, and per shard the
    table bN.pos.iix and the posting file bN.pos. *)
Record disk := MkDisk {
  k_cfg : option config; k_dmd : option bytes; k_fnames : option bytes; k_shards : list (bytes * bytes) }.

(** indexer.go:29-40 without lock and channels; the adder comes with its file. *)
Record indexer := MkIndexer {
  x_cfg : config; x_dmds : adder * option bytes; x_fnames : fnames; x_shards : list shard }.

(** indexer.go:42-84, from an empty directory (Mkdir at line 55 fails if there is one) *)
Definition create_indexer (c : config) : result (indexer * list blotter) :=
  if (cf_numshards c <? 0)%Z then Panic                        (* make at line 53 *)
  else
    do! _ <- token_from_config (cf_token c);
    do! a <- new_adder None (cf_flush c);
    do! ws <- start_workers c;
    Ok (MkIndexer c (a, None) new_fnames (repeat shard_create (Z.to_nat (cf_numshards c))), ws).

(** The shards of an index, one after another (indexer.go:143-152, index.go:68-74). *)
Fixpoint for_shards {A} (f : bytes -> bytes -> result A) (n : nat) (files : list (bytes * bytes)) : result (list A) :=
  match n with
  | O => Ok []
  | S k =>
      match files with
      | [] => Err EOther
      | (iix, pos) :: r => do! x <- f iix pos; do! xs <- for_shards f k r; Ok (x :: xs)
      end
  end.
Definition read_some {A} (f : bytes -> result A) (file : option bytes) : result A :=
  match file with None => Err EOther | Some b => f b end.
(** ReadConfig, config.go:117-138, after unmarshalling *)
Definition read_config (dk : disk) : result config :=
  match k_cfg dk with None => Err EOther | Some c => do! _ <- cfg_check c; Ok c end.

(** indexer.go:86-96,116-160 *)
Definition open_indexer (dk : disk) : result (indexer * list blotter) :=
  do! c <- read_config dk;
  if (cf_numshards c <? 0)%Z then Panic
  else
    do! a <- new_adder (k_dmd dk) (cf_flush c);
    do! fn <- read_some read_fnames (k_fnames dk);
    do! _ <- token_from_config (cf_token c);
    do! xs <- for_shards shard_append (Z.to_nat (cf_numshards c)) (k_shards dk);
    do! ws <- start_workers c;
    Ok (MkIndexer c (a, k_dmd dk) fn xs, ws).

(** indexer.go:246-253; the working directory is that of the moment of the call. *)
Definition doc2id (fn : fnames) (dm : adder * option bytes) (cwd : bytes) (d : doc)
  : result (fnames * (adder * option bytes) * N) :=
  do! (fn, fid) <- add_path cwd fn (d_path d);
  let '(dm, did) := adder_add dm (MkFields fid (d_start d) (d_end d)) in
  Ok (fn, dm, did).
(** The calls of Add, as far as they concern paths and meta data (indexer.go:236-244); only
    the caller's goroutine touches these. *)
Fixpoint doc_ids (fn : fnames) (dm : adder * option bytes) (docs : list (bytes * doc))
  : result (fnames * (adder * option bytes) * list N) :=
  match docs with
  | [] => Ok (fn, dm, [])
  | (cwd, d) :: r =>
      do! (fn, dm, did) <- doc2id fn dm cwd d;
      do! (fn, dm, dids) <- doc_ids fn dm r;
      Ok (fn, dm, did :: dids)
  end.
(** What goes to the workers (indexer.go:242): offset and data; the id is that of doc2id,
    and Model/Conc numbers the requests from the last id on ([session_ids_agree] in
    Proof/SessionP: these are the same). *)
Definition requests (docs : list (bytes * doc)) : list req := map (fun p => (d_start (snd p), d_dat (snd p))) docs.

(** A session from its start to the end of Close (indexer.go:196-233), its goroutines in any
    interleaving. [MChan]: Close has shut down the workers and goes on to close the
    channels and to write the files. *)
Inductive session (u : unicode) (start : result (indexer * list blotter)) (docs : list (bytes * doc)) : disk -> Prop :=
  Session x ws fn dm ids st j :
    start = Ok (x, ws) ->
    doc_ids (x_fnames x) (x_dmds x) docs = Ok (fn, dm, ids) ->
    session_steps u (x_cfg x) (session_start (adder_last (fst (x_dmds x))) ws (x_shards x) (requests docs)) st ->
    s_main st = MChan j ->
    session u start docs
      (MkDisk (Some (x_cfg x)) (adder_close dm) (Some (fn_write fn)) (map shard_close (map v_shard (s_servers st)))).
(** The life of an index: a creating session, then appending ones; the latest first. *)
Inductive history (u : unicode) (c : config) : list (list (bytes * doc)) -> disk -> Prop :=
  | history_create docs dk : session u (create_indexer c) docs dk -> history u c [docs] dk
  | history_append ss dk docs dk' : history u c ss dk -> session u (open_indexer dk) docs dk' ->
      history u c (docs :: ss) dk'.

(** index.go:39-76 *)
Definition open_index (sorted : list N -> list nat) (dk : disk) : result index :=
  do! c <- read_config dk;
  do! dm <- read_some Ok (k_dmd dk);
  do! fn <- read_some read_fnames (k_fnames dk);
  if (cf_numshards c <? 0)%Z then Panic
  else
    do! xs <- for_shards (shard_open sorted) (Z.to_nat (cf_numshards c)) (k_shards dk);
    Ok (MkIndex c dm fn xs).

(** stats.go:19-27 without the floating-point fields (these are in Model/Stats); index.go:100-124 *)
Record stats := MkStats { st_docs : N; st_paths : N; st_posts : N; st_blots : N }.
Definition index_stats (ix : index) : stats :=
  MkStats (dmd_num_docs (ix_dmd ix)) (nlen (ix_fnames ix))
    (fold_left (fun t s => u64 (t + shard_num_posts s)) (ix_shards ix) 0)
    (u64 (65536 * nlen (ix_shards ix))).
