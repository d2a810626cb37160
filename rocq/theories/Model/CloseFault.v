(** Close when system calls fail: indexer.go:196-233, config.go:140-160, indexer.go:163-172,
    fnames.go:158-186, dmd/adder.go:70-97, internal/shard/indexer.go:113-158 and
    internal/shard/poster.go:141-189, with their error paths.

    Every os.OpenFile, Write, WriteAt, Seek and Stat may fail; a write that fails may have
    written some of its bytes. The results of the deferred File.Close are dropped by the code;
    they are taken to have no effect. *)
From Verif Require Import Model.Base Model.Varint Model.Utf8 Model.Token Model.Blotter Model.Post Model.Poster Model.Shatter Model.Shard Model.Dmd Model.Fnames Model.Conc Model.Config Model.Json Model.Run Model.Index Model.Query Model.Session Model.Crash.
Local Open Scope N_scope.

(** How the calls to come end: [None]: as asked; [Some k]: with an error, a write after its
    first [k] bytes. Calls past the end of the list succeed. *)
Definition calls := list (option nat).
Definition call (o : calls) : option nat * calls := match o with [] => (None, []) | r :: o => (r, o) end.
Definition write_c (f : bytes) (off : nat) (d : bytes) (o : calls) : bytes * calls * bool :=
  let '(r, o) := call o in
  match r with
  | None => (pwrite f off d, o, true)
  | Some k => (pwrite f off (firstn k d), o, false)
  end.
(** One write after the other at the end of a file. *)
Fixpoint appends_c (ws : list bytes) (f : bytes) (o : calls) : bytes * calls * bool :=
  match ws with
  | [] => (f, o, true)
  | w :: ws =>
      let '(r, o) := call o in
      match r with
      | None => appends_c ws (f ++ w) o
      | Some k => (f ++ firstn k w, o, false)
      end
  end.

(** poster.go:147-189: Stat, perhaps WriteAt, Seek, Write, Write *)
Definition flush_to_c (p : poster) (f : bytes) (o : calls) : poster * bytes * calls * bool :=
  match p_posts p with
  | [] => (p, f, o, true)
  | _ =>
      let '(r, o) := call o in
      match r with
      | Some _ => (p, f, o, false)
      | None =>
          let end_ := length f in
          let '(p, f, o, ok) :=
            if negb (p_link p =? -1)%Z
            then let '(f, o, ok) := write_c f (Z.to_nat (p_link p)) (put_be64 (u64_of_i64 (Z.of_nat end_))) o in (p, f, o, ok)
            else (MkPoster (p_link p) (Z.of_nat end_) (p_current p) (p_total p) (p_posts p), f, o, true) in
          if negb ok then (p, f, o, false)
          else
            let '(r, o) := call o in
            match r with
            | Some _ => (p, f, o, false)
            | None =>
                let posts := p_posts p ++ put_be64 (u64_of_i64 (-1)) in
                let len := put_varint (zlen posts) in
                let p := MkPoster (p_link p) (p_head p) (p_current p) (p_total p) posts in
                let '(f, o, ok) := write_c f end_ len o in
                if negb ok then (p, f, o, false)
                else
                  let '(f, o, ok) := write_c f (end_ + length len) posts o in
                  if negb ok then (p, f, o, false)
                  else (MkPoster (Z.of_nat end_ + zlen len + zlen posts - 8) (p_head p) (p_current p) (p_total p) [], f, o, true)
            end
      end
  end.
(** internal/shard/indexer.go:147-158 *)
Fixpoint flush_ind_c (n i : nat) (x : shard) (o : calls) : shard * calls * bool :=
  match n with
  | O => (x, o, true)
  | S k =>
      match nth_error (x_ind x) i with
      | None => (x, o, true)
      | Some po =>
          let '(po', f, o, ok) := flush_to_c po (x_file x) o in
          let x := MkShard (upd i po' (x_ind x)) f in
          if negb ok then (x, o, false) else flush_ind_c k (S i) x o
      end
  end.
(** internal/shard/indexer.go:120-145; [iix] is the table there was *)
Definition flush_iix_c (x : shard) (iix : option bytes) (o : calls) : option bytes * calls * bool :=
  let '(r, o) := call o in
  match r with
  | Some _ => (iix, o, false)
  | None => let '(t, o, ok) := appends_c (iix_writes (x_ind x)) [] o in (Some t, o, ok)
  end.
(** internal/shard/indexer.go:113-118: the table, the posting file *)
Definition shard_close_c (x : shard) (iix : option bytes) (o : calls) : option bytes * option bytes * calls * bool :=
  let '(x, o, ok) := flush_ind_c (length (x_ind x)) 0 x o in
  if negb ok then (iix, Some (x_file x), o, false)
  else let '(t, o, ok) := flush_iix_c x iix o in (t, Some (x_file x), o, ok).

(** config.go:140-160 *)
Definition config_write_c (old : option bytes) (c : config) (o : calls) : option bytes * calls * bool :=
  let '(r, o) := call o in
  match r with
  | Some _ => (old, o, false)
  | None =>
      let f := match old with None => [] | Some f => f end in
      let d := marshal c in
      let '(f, o, ok) := write_c f 0 d o in
      if negb ok then (Some f, o, false)
      else let '(f, o, ok) := write_c f (length d) [10] o in (Some f, o, ok)
  end.
(** indexer.go:163-172, fnames.go:165-186 *)
Definition write_files_c (old : option bytes) (fn : fnames) (o : calls) : option bytes * calls * bool :=
  let '(r, o) := call o in
  match r with
  | Some _ => (old, o, false)
  | None => let '(f, o, ok) := appends_c (fn_writes fn) [] o in (Some f, o, ok)
  end.
(** dmd/adder.go:70-97: OpenFile (which creates the file), Seek, one write for each record *)
Definition adder_close_c (dm : adder * option bytes) (o : calls) : option bytes * calls * bool :=
  let '(a, file) := dm in
  match a_buf a with
  | [] => (file, o, true)
  | _ =>
      let '(r, o) := call o in
      match r with
      | Some _ => (file, o, false)
      | None =>
          let f := match file with None => [] | Some f => f end in
          let '(r, o) := call o in
          match r with
          | Some _ => (Some f, o, false)
          | None => let '(f, o, ok) := appends_c (flush_writes a) f o in (Some f, o, ok)
          end
      end
  end.

(** Each shard is closed by a goroutine of its own (indexer.go:216-231), with calls of its
    own; an error of any of them is an error of Close. *)
Fixpoint shards_close_c (xs : list shard) (old : list (option bytes * option bytes)) (os : list calls)
  : list (option bytes * option bytes) * list calls * bool :=
  match xs, old with
  | x :: xs, p :: old =>
      let '(o, os) := match os with [] => ([], []) | o :: os => (o, os) end in
      let '(t, f, o, ok) := shard_close_c x (fst p) o in
      let '(fs, os, oks) := shards_close_c xs old os in
      ((t, f) :: fs, o :: os, ok && oks)
  | _, _ => ([], os, true)
  end.
(** The shards before they are closed. *)
Fixpoint shards_open (xs : list shard) (old : list (option bytes * option bytes)) : list (option bytes * option bytes) :=
  match xs, old with
  | x :: xs, p :: old => (fst p, Some (x_file x)) :: shards_open xs old
  | _, _ => []
  end.

(** indexer.go:207-233. [o]: the calls of the goroutine that runs Close; [os]: those of the
    shards' goroutines. The files it leaves; the calls that were not made; whether it returns
    nil. *)
Definition indexer_close_c (c : config) (xs : list shard) (old : files) (fn : fnames) (dm : adder * option bytes) (o : calls) (os : list calls)
  : files * calls * list calls * bool :=
  let '(cfg, o, ok) := config_write_c (w_cfg old) c o in
  if negb ok then (MkFiles cfg (snd dm) (w_fnames old) (shards_open xs (w_shards old)), o, os, false)
  else
    let '(nm, o, ok) := write_files_c (w_fnames old) fn o in
    if negb ok then (MkFiles cfg (snd dm) nm (shards_open xs (w_shards old)), o, os, false)
    else
      let '(dmd, o, ok) := adder_close_c dm o in
      if negb ok then (MkFiles cfg dmd nm (shards_open xs (w_shards old)), o, os, false)
      else
        let '(sh, os, ok) := shards_close_c xs (w_shards old) os in
        (MkFiles cfg dmd nm sh, o, os, ok).

(** A session that started with the files [old] and whose last calls, those of Close, end as
    [o] and [os] say: the files it leaves and whether Close returns nil. *)
Inductive closed_session (u : unicode) (start : result (indexer * list blotter)) (old : files) (docs : list (bytes * doc))
    (o : calls) (os : list calls) : files -> bool -> Prop :=
  ClosedSession x ws fn dm ids st fs o' os' ok :
    start = Ok (x, ws) ->
    doc_ids (x_fnames x) (x_dmds x) docs = Ok (fn, dm, ids) ->
    session_steps u (x_cfg x) (session_start (adder_last (fst (x_dmds x))) ws (x_shards x) (requests docs)) st ->
    s_main st = MChan (length (s_servers st)) ->
    indexer_close_c (x_cfg x) (map v_shard (s_servers st)) old fn dm o os = (fs, o', os', ok) ->
    closed_session u start old docs o os fs ok.
