(** cmd/dupi/index.go:58-79: what the options of the index command make. *)
From Verif Require Import Model.Base Model.Path Model.Config Model.Json Model.Blotter Model.Session Model.Crash Model.Root.
Local Open Scope N_scope.

(** The values of -a, -n, -s, -t and -c (index.go:45-50), once parsed. *)
Record index_opts := MkOpts { op_add : bool; op_shards : Z; op_shatters : Z; op_seqlen : Z; op_cfg : bytes }.
(** index.go:62-77: [file] gives the contents of files, for -c. *)
Definition opt_config (file : bytes -> option bytes) (cwd root : bytes) (o : index_opts) : result config :=
  match op_cfg o with
  | _ :: _ => Json.read_config (file (op_cfg o))
  | [] =>
      do! c <- new_config cwd root (op_shards o) (op_seqlen o);
      Ok (MkConfig (cf_root c) (cf_seqlen c) (cf_numshards c) (op_shatters o) (cf_flush c) (cf_token c) (cf_blot c))
  end.
(** index.go:58-79. [there]: is there a file or directory of that name (indexer.go:55)? The
    number of shards is used before that (indexer.go:53). *)
Definition get_indexer (dirs : bytes -> files) (there : bytes -> bool) (file : bytes -> option bytes) (cwd root : bytes) (o : index_opts)
  : result (indexer * list blotter) :=
  if op_add o then open_indexer_at dirs cwd root
  else
    do! c <- opt_config file cwd root o;
    if (cf_numshards c <? 0)%Z then Panic
    else if there (cf_root c) then Err EOther
    else create_indexer c.
