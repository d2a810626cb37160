(** cmd/dupenron/main.go:49-132 from the values of its options on: dupenron -o and indexing. *)
From Coq Require Import String.
From Verif Require Import Model.Base Model.Utf8 Model.Token Model.Blotter Model.Post Model.Shard Model.Dmd Model.Conc Model.Config Model.Run Model.Index Model.Session Model.Crash Model.Csv Model.Enron Spec.Str.
Local Open Scope N_scope.
Local Open Scope list_scope.

(** main.go:80-93: what is left of the buffer is not written, there being no Flush. *)
Fixpoint o_loop (n : nat) (r : bytes) (w : bufout) : bufout :=
  match n with
  | O => w
  | S n =>
      match read_record (S (List.length r)) r with
      | Ok (a, b, rest) => o_loop n rest (buf_write w (write_record a b))
      | _ => w
      end
  end.
(** main.go:72-95 *)
Definition o_enron (file : option bytes) (n : Z) : bytes :=
  match file with None => [] | Some r => fst (o_loop (Z.to_nat n) r ([], [])) end.
(** How dupenron ends: with a status, or with a panic. *)
Inductive ending := Status (n : N) | Panics.
(** main.go:51-54: the result of oEnron is not looked at. [args] are flag.Args(). *)
Definition o_main (file : bytes -> option bytes) (n : Z) (args : list bytes) : bytes * ending :=
  match args with
  | [] => ([], Panics)
  | fname :: _ => (o_enron (file fname) n, Status 0)
  end.

(** The files of an indexer to which [docs] have been added and which is not closed, while its
    goroutines run or when they have come to a stop. *)
Inductive abandoned (u : unicode) (c : config) (docs : list (bytes * doc)) : files -> Prop :=
  Abandoned x ws st fn dm ids req sh :
    create_indexer c = Ok (x, ws) ->
    doc_ids (x_fnames x) (x_dmds x) docs = Ok (fn, dm, ids) ->
    session_steps u (x_cfg x) (session_start (adder_last (fst (x_dmds x))) ws (x_shards x) (requests docs)) st ->
    s_main st = MRun -> s_clients st = [MkClient req []] ->
    shards_at serving (s_servers st) (repeat new_shard_files (Z.to_nat (cf_numshards c))) sh ->
    abandoned u c docs (MkFiles None (snd dm) None sh).
(** main.go:61-68, 98-132, when the indexer has been created with configuration [c]. The
    files of the index it leaves, and how it ends. index.Close has no failing calls here. *)
Inductive enron_main (u : unicode) (cwd : bytes) (c : config) (file : bytes -> option bytes) : list bytes -> files -> ending -> Prop :=
  | enron_no_args fs : abandoned u c [] fs -> enron_main u cwd c file [] fs Panics
  | enron_missing fname args fs : file fname = None -> abandoned u c [] fs -> enron_main u cwd c file (fname :: args) fs (Status 1)
  | enron_bad fname args t rcds fs : file fname = Some t -> csv_records t = (rcds, Err EOther) ->
      abandoned u c (map (pair cwd) (enron_docs fname 0 rcds)) fs -> enron_main u cwd c file (fname :: args) fs (Status 1)
  | enron_good fname args t rcds dk : file fname = Some t -> csv_records t = (rcds, Ok tt) ->
      session u (create_indexer c) (map (pair cwd) (enron_docs fname 0 rcds)) dk ->
      enron_main u cwd c file (fname :: args) (files_of dk) (Status 0).
