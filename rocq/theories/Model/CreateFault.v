(** IndexerFromConfig when system calls fail: indexer.go:42-84, dmd/adder.go:31-51 and
    internal/shard/indexer.go:42-59 with poster.go:39-58, with their error paths, over the
    directory of the index. *)
From Verif Require Import Model.Base Model.Blotter Model.Shard Model.Dmd Model.Fnames Model.Config Model.Run Model.Session Model.Crash Model.CloseFault.
Local Open Scope N_scope.

(** internal/shard/indexer.go:42-59: OpenFile of the table, the writes of its entries, OpenFile
    of the posting file *)
Definition init_create_c (o : calls) : (option bytes * option bytes) * calls * bool :=
  let '(r, o) := call o in
  match r with
  | Some _ => ((None, None), o, false)
  | None =>
      let '(t, o, ok) := appends_c iix_create_writes [] o in
      if negb ok then ((Some t, None), o, false)
      else
        let '(r, o) := call o in
        match r with
        | Some _ => ((Some t, None), o, false)
        | None => ((Some t, Some []), o, true)
        end
  end.
(** indexer.go:67-75: the files of all shards; those not reached do not exist. *)
Fixpoint init_shards_c (n : nat) (o : calls) : list (option bytes * option bytes) * calls * bool :=
  match n with
  | O => ([], o, true)
  | S k =>
      let '(f, o, ok) := init_create_c o in
      if negb ok then (f :: repeat (None, None) k, o, false)
      else let '(fs, o, ok) := init_shards_c k o in (f :: fs, o, ok)
  end.

(** indexer.go:42-84. [dir]: the files of the directory, [None] if there is no directory. What
    is left: the directory, the calls that were not made. lock.New, Lock and Mkdir may fail,
    Mkdir also because there is something of that name. *)
Definition create_c (c : config) (o : calls) (dir : option files) : result (indexer * list blotter) * option files * calls :=
  let '(r, o) := call o in
  match r with
  | Some _ => (Err EOther, dir, o)
  | None =>
      let '(r, o) := call o in
      match r with
      | Some _ => (Err EOther, dir, o)
      | None =>
          if (cf_numshards c <? 0)%Z then (Panic, dir, o)
          else
            let n := Z.to_nat (cf_numshards c) in
            let '(r, o) := call o in
            match r, dir with
            | Some _, _ | _, Some _ => (Err EOther, dir, o)
            | None, None =>
                let fs sh := Some (MkFiles None None None sh) in
                let none := repeat (None, None) n in
                match token_from_config (cf_token c) with
                | Ok _ =>
                    let '(r, o) := call o in
                    match r with
                    | Some _ => (Err EOther, fs none, o)
                    | None =>
                        match new_adder None (cf_flush c) with
                        | Ok a =>
                            let '(sh, o, ok) := init_shards_c n o in
                            if negb ok then (Err EOther, fs sh, o)
                            else
                              (do! ws <- start_workers c; Ok (MkIndexer c (a, None) new_fnames (repeat shard_create n), ws),
                               fs sh, o)
                        | Err e => (Err e, fs none, o)
                        | Panic => (Panic, fs none, o)
                        | Loop => (Loop, fs none, o)
                        end
                    end
                | Err e => (Err e, fs none, o)
                | Panic => (Panic, fs none, o)
                | Loop => (Loop, fs none, o)
                end
            end
      end
  end.
