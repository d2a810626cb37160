(** Sessions that stop half-way. What is on disk is what the system calls made so far have
    written; a write may be cut short, only a first part of its data having arrived. (The
    process stops, not the machine: writes are not lost or reordered.) *)
From Verif Require Import Model.Base Model.Utf8 Model.Token Model.Blotter Model.Post Model.Poster Model.Shatter Model.Shard Model.Dmd Model.Fnames Model.Conc Model.Config Model.Json Model.Run Model.Index Model.Query Model.Session.
Local Open Scope N_scope.

(** The files in the directory of an index: cfg.json, dmd, files.fnm, and for each shard
    bN.pos.iix and bN.pos. [None]: there is no such file. *)
Record files := MkFiles {
  w_cfg : option bytes; w_dmd : option bytes; w_fnames : option bytes; w_shards : list (option bytes * option bytes) }.
(** Those of a finished session. *)
Definition files_of (dk : disk) : files :=
  MkFiles (option_map (config_write None) (k_cfg dk)) (k_dmd dk) (k_fnames dk)
    (map (fun p => (Some (fst p), Some (snd p))) (k_shards dk)).

(** * Opening *)

Fixpoint for_files {A} (f : bytes -> bytes -> result A) (n : nat) (fs : list (option bytes * option bytes)) : result (list A) :=
  match n with
  | O => Ok []
  | S k =>
      match fs with
      | (Some iix, Some pos) :: r => do! x <- f iix pos; do! xs <- for_files f k r; Ok (x :: xs)
      | _ => Err EOther
      end
  end.
(** index.go:39-76 without the lock. [dirs] gives the index directories of the file system:
    the configuration is read from the given root, everything else from the root that it
    names (index.go:50-71). A shard's table is read before its posting file is opened
    (internal/shard/index.go:36-46); it is an error either way. *)
Definition open_files (sorted : list N -> list nat) (dirs : bytes -> files) (root : bytes) : result index :=
  do! c <- Json.read_config (w_cfg (dirs root));
  let fs := dirs (cf_root c) in
  do! dm <- read_some Ok (w_dmd fs);
  do! fn <- read_some read_fnames (w_fnames fs);
  if (cf_numshards c <? 0)%Z then Panic
  else
    do! xs <- for_files (shard_open sorted) (Z.to_nat (cf_numshards c)) (w_shards fs);
    Ok (MkIndex c dm fn xs).
(** indexer.go:86-96,116-160, likewise *)
Definition open_indexer_files (dirs : bytes -> files) (root : bytes) : result (indexer * list blotter) :=
  do! c <- Json.read_config (w_cfg (dirs root));
  let fs := dirs (cf_root c) in
  if (cf_numshards c <? 0)%Z then Panic
  else
    do! a <- new_adder (w_dmd fs) (cf_flush c);
    do! fn <- read_some read_fnames (w_fnames fs);
    do! _ <- token_from_config (cf_token c);
    do! xs <- for_files shard_append (Z.to_nat (cf_numshards c)) (w_shards fs);
    do! ws <- start_workers c;
    Ok (MkIndexer c (a, w_dmd fs) fn xs, ws).

(** * Stopping *)

(** After some of the writes [ws], the next one perhaps in part. *)
Inductive wops_cut : list wop -> bytes -> bytes -> Prop :=
  | cut_here ws f : wops_cut ws f f
  | cut_in off d1 d2 ws f : wops_cut ((off, d1 ++ d2) :: ws) f (pwrite f off d1)
  | cut_later off d ws f f' : wops_cut ws (pwrite f off d) f' -> wops_cut ((off, d) :: ws) f f'.

(** dmd/adder.go:77-97, stopped after the file has been opened. *)
Inductive flush_cut (dm : adder * option bytes) : option bytes -> Prop :=
  | flush_cut_at pre post : concat (flush_writes (fst dm)) = pre ++ post -> flush_cut dm (file_append (snd dm) pre).
(** dmd/adder.go:53-64: in Add, which flushes only when the buffer is full. *)
Inductive add_cut (dm : adder * option bytes) : option bytes -> Prop :=
  | add_cut_no : add_cut dm (snd dm)
  | add_cut_flush f : u32 (nlen (a_buf (fst dm))) = a_rate (fst dm) -> flush_cut dm f -> add_cut dm f.
(** dmd/adder.go:70-75 *)
Inductive close_cut (dm : adder * option bytes) : option bytes -> Prop :=
  | close_cut_no : close_cut dm (snd dm)
  | close_cut_flush f : a_buf (fst dm) <> [] -> flush_cut dm f -> close_cut dm f.

(** A shard while it serves posts; its table is not touched (internal/shard/indexer.go:159-177). *)
Inductive serving (v : server (P := post) (S := shard)) (iix : option bytes) : option bytes * option bytes -> Prop :=
  | serving_between : serving v iix (iix, Some (x_file (v_shard v)))
  | serving_within p ps pos : v_st v = VBusy (p :: ps) -> wops_cut (snd (serve_post_w (v_shard v) p)) (x_file (v_shard v)) pos ->
      serving v iix (iix, Some pos).
(** A shard while it is closed (internal/shard/indexer.go:113-158): the posters are flushed,
    then the table is truncated and written anew. *)
Inductive closing (x : shard) (iix : option bytes) : option bytes * option bytes -> Prop :=
  | closing_flush pos : wops_cut (snd (flush_ind_w (length (x_ind x)) 0 x)) (x_file x) pos -> closing x iix (iix, Some pos)
  | closing_table pre post : iix_bytes (x_ind (flush_ind x)) = pre ++ post -> closing x iix (Some pre, Some (x_file (flush_ind x))).
(** Each shard by itself: they are closed concurrently (indexer.go:216-231). *)
Fixpoint shards_at {A} (P : A -> option bytes -> option bytes * option bytes -> Prop) (xs : list A)
  (old new : list (option bytes * option bytes)) : Prop :=
  match xs, old, new with
  | [], [], [] => True
  | x :: xs, o :: old, f :: new => P x (fst o) f /\ shards_at P xs old new
  | _, _, _ => False
  end.

(** config.Write, writeFiles, dmds.Close and the shards (indexer.go:207-222) *)
Inductive stopped_close (x : indexer) (xs : list shard) (old : files) (fn : fnames) (dm : adder * option bytes) : files -> Prop :=
  | close_cfg f sh :
      wops_cut [(0%nat, marshal (x_cfg x)); (length (marshal (x_cfg x)), [10])] (match w_cfg old with Some b => b | None => [] end) f ->
      shards_at (fun x iix p => p = (iix, Some (x_file x))) xs (w_shards old) sh ->
      stopped_close x xs old fn dm (MkFiles (Some f) (snd dm) (w_fnames old) sh)
  | close_fnames pre post sh :
      fn_write fn = pre ++ post ->
      shards_at (fun x iix p => p = (iix, Some (x_file x))) xs (w_shards old) sh ->
      stopped_close x xs old fn dm (MkFiles (Some (config_write (w_cfg old) (x_cfg x))) (snd dm) (Some pre) sh)
  | close_dmd f sh :
      close_cut dm f ->
      shards_at (fun x iix p => p = (iix, Some (x_file x))) xs (w_shards old) sh ->
      stopped_close x xs old fn dm (MkFiles (Some (config_write (w_cfg old) (x_cfg x))) f (Some (fn_write fn)) sh)
  | close_shards sh :
      shards_at closing xs (w_shards old) sh ->
      stopped_close x xs old fn dm (MkFiles (Some (config_write (w_cfg old) (x_cfg x))) (adder_close dm) (Some (fn_write fn)) sh).

(** The files of a session that started with indexer [x], workers [ws] and the files [old],
    and is stopped at some point; [docs] are the documents to be added. *)
Inductive stopped (u : unicode) (x : indexer) (ws : list blotter) (old : files) (docs : list (bytes * doc)) : files -> Prop :=
  (* before Close writes anything; [rest] are the documents not yet given ids *)
  | stopped_running st done rest req fn dm ids f sh :
      session_steps u (x_cfg x) (session_start (adder_last (fst (x_dmds x))) ws (x_shards x) (requests docs)) st ->
      docs = done ++ rest -> s_clients st = [MkClient req (requests rest)] ->
      doc_ids (x_fnames x) (x_dmds x) done = Ok (fn, dm, ids) ->
      match rest, req with _ :: _, None => add_cut dm f | _, _ => f = snd dm end ->
      shards_at serving (s_servers st) (w_shards old) sh ->
      stopped u x ws old docs (MkFiles (w_cfg old) f (w_fnames old) sh)
  (* in Close, the channels being closed (indexer.go:204-233) *)
  | stopped_closing st fn dm ids fs :
      session_steps u (x_cfg x) (session_start (adder_last (fst (x_dmds x))) ws (x_shards x) (requests docs)) st ->
      s_main st = MChan (length (s_servers st)) ->
      doc_ids (x_fnames x) (x_dmds x) docs = Ok (fn, dm, ids) ->
      stopped_close x (map v_shard (s_servers st)) old fn dm fs ->
      stopped u x ws old docs fs.

(** Creating (indexer.go:42-84). The table a new shard starts with
    (internal/shard/indexer.go:42-59): *)
Definition iix_created : bytes := concat iix_create_writes.
Definition new_shard_files : option bytes * option bytes := (Some iix_created, Some []).
Inductive create_stopped (u : unicode) (c : config) (docs : list (bytes * doc)) : files -> Prop :=
  (* [i] shards have been set up, and the next one in part *)
  | create_setup i sh rest : (i + length (sh :: rest) = Z.to_nat (cf_numshards c))%nat ->
      sh = (None, None) \/ (exists pre post, iix_created = pre ++ post /\ sh = (Some pre, None)) ->
      Forall (fun r => r = (None, None)) rest ->
      create_stopped u c docs (MkFiles None None None (repeat new_shard_files i ++ sh :: rest))
  | create_later x ws fs : create_indexer c = Ok (x, ws) ->
      stopped u x ws (MkFiles None None None (repeat new_shard_files (Z.to_nat (cf_numshards c)))) docs fs ->
      create_stopped u c docs fs.
(** Appending (indexer.go:86-96,116-160): opening only reads. *)
Inductive append_stopped (u : unicode) (dk : disk) (docs : list (bytes * doc)) : files -> Prop :=
  | append_later x ws fs : open_indexer dk = Ok (x, ws) -> stopped u x ws (files_of dk) docs fs -> append_stopped u dk docs fs.
