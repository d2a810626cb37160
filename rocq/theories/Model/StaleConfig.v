(** OpenIndexer reads the configuration before it takes the lock (indexer.go:87 and
    119-127), so others may in between remove the index and create another one of another
    number of shards at the same place. The session then works with the configuration of
    the index that was. *)
From Verif Require Import Model.Base Model.Utf8 Model.Token Model.Blotter Model.Post Model.Shatter Model.Shard Model.Dmd Model.Fnames Model.Conc Model.Config Model.Json Model.Run Model.Index Model.Query Model.Session Model.Crash.
Local Open Scope N_scope.

(** openFromConfig, indexer.go:116-160: the configuration [c] has been read earlier, and
    [fs] are the files at its root now. *)
Definition open_from_config (c : config) (fs : files) : result (indexer * list blotter) :=
  if (cf_numshards c <? 0)%Z then Panic
  else
    do! a <- new_adder (w_dmd fs) (cf_flush c);
    do! fn <- read_some read_fnames (w_fnames fs);
    do! _ <- token_from_config (cf_token c);
    do! xs <- for_files shard_append (Z.to_nat (cf_numshards c)) (w_shards fs);
    do! ws <- start_workers c;
    Ok (MkIndexer c (a, w_dmd fs) fn xs, ws).

(** The files after a session that ended with [dk], at a place where the files [old] were:
    the configuration is written without truncating the file (config.go:140-152), and the
    files of shards that the session does not know of stay. *)
Definition files_over (old : files) (dk : disk) : files :=
  MkFiles (option_map (config_write (w_cfg old)) (k_cfg dk)) (k_dmd dk) (k_fnames dk)
    (map (fun p => (Some (fst p), Some (snd p))) (k_shards dk) ++ skipn (length (k_shards dk)) (w_shards old)).
