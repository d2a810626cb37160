(** Get of an open index (query.go:63-88) where every read of a file happens at a moment of
    its own: while the query runs, other sessions write to the files. *)
From Verif Require Import Model.Base Model.Utf8 Model.Post Model.Address Model.Varint Model.Poster Model.Shard Model.Index Model.Query Model.Session Model.Crash Model.Live.
Local Open Scope N_scope.

(** [f t]: the posting file as the read with the number [t] sees it. Each function also gives
    the number of the next read. *)
Section Posting.
  Variable f : nat -> bytes.
  (** internal/shard/posts.go:48-72: one ReadAt for each byte *)
  Fixpoint read_varint_during (fuel t : nat) (p n : Z) (buf : bytes) : result (Z * Z * nat) :=
    match fuel with
    | O => Err EOther
    | S k =>
        do! b <- pread (f t) (p + n) 1;
        let buf := buf ++ b in
        let n := (n + 1)%Z in
        if (match b with c :: _ => c <? 128 | [] => false end) then
          let '(v, m) := varint buf in
          if (m <=? 0)%Z then Err EOther else Ok (v, n, S t)
        else read_varint_during k (S t) p n buf
    end.
  (** internal/shard/posts.go:89-126: a second ReadAt for the chunk *)
  Definition read_next_during (t : nat) (p : posts) : result (posts * nat) :=
    do! (v, n, t) <- wrap_err (read_varint_during max_varint_len64 t (r_nextpos p) 0 []);
    if (v <? 0)%Z || (reader_buf <? v)%Z then Panic
    else
      do! buf <- wrap_err (pread (f t) (r_nextpos p + n) v);
      do! (ids, cur, rest) <- decode_chunk (S (length buf)) buf 0 (v - 8) (r_current p) [];
      Ok (MkPosts 0 (i64_of_u64 (be64 rest)) cur ids, S t).
  (** internal/shard/posts.go:74-87 and read_state.go:29-33 *)
  Definition posts_next_during (t : nat) (p : posts) : result (N * posts * nat) :=
    do! (p, t) <- (if (r_i p =? length (r_docids p))%nat then
                     if (r_nextpos p =? -1)%Z then Err EOF else read_next_during t p
                   else Ok (p, t));
    match nth_error (r_docids p) (r_i p) with
    | None => Panic
    | Some d => Ok (d, MkPosts (S (r_i p)) (r_nextpos p) (r_current p) (r_docids p), t)
    end.
End Posting.

(** [now t]: the files as the read with the number [t] sees them. *)
Section Get.
  Variable grow : nat -> nat.
  Variable ix : index.
  Variable now : nat -> files.
  Definition posting (j t : nat) : bytes :=
    match nth_error (ix_shards (live ix (now t))) j with Some s => si_file s | None => [] end.
  (** query.go:73-87; docid2Doc reads dmd once (dmd/t.go:50-65). *)
  Fixpoint get_loop_during (fuel t : nat) (lim : bool) (j : nat) (ps : posts) (ds : docs) : result docs :=
    match fuel with
    | O => Loop
    | S k =>
        if lim && (docs_len ds =? docs_cap ds)%nat then Ok ds
        else match posts_next_during (posting j) t ps with
             | Err EOF => Ok ds
             | Err EOther => Err EOther
             | Panic => Panic
             | Loop => Loop
             | Ok (did, ps, t) =>
                 do! (path, start, end_) <- docid2doc (live ix (now t)) did;
                 do! ds <- put_doc grow lim ds path start end_;
                 get_loop_during k (S t) lim j ps ds
             end
    end.
  (** query.go:63-88 *)
  Definition query_get_during (fuel : nat) (blot : N) (ds : docs) : result docs :=
    let n := u32 (nlen (ix_shards ix)) in
    do! (shard, shardblot) <- get_address n blot;
    match nth_error (ix_shards ix) (N.to_nat shard) with
    | None => Panic
    | Some s =>
        let rs := read_state_for s (N.to_nat shardblot) in
        get_loop_during fuel 0 (negb (is_nil ds)) (N.to_nat shard) (rs_posts rs) ds
    end.
End Get.

(** What a read may see: nothing says that it happens at one moment. [f] is as long as the
    file was at some moment, and each of its bytes is what it was at some moment. *)
Definition mixed (at_some : bytes -> Prop) (f : bytes) : Prop :=
  (exists g, at_some g /\ length g = length f) /\
  forall i b, nth_error f i = Some b -> exists g, at_some g /\ nth_error g i = Some b.
(** [fs]: such views of dmd and of the posting files. The moments: those after the opening
    of the index. *)
Definition views (moment : files -> Prop) (fs : files) : Prop :=
  (exists d, w_dmd fs = Some d /\ mixed (fun g => exists fs', moment fs' /\ w_dmd fs' = Some g) d) /\
  (exists fs', moment fs' /\ length (w_shards fs) = length (w_shards fs')) /\
  forall j fl, nth_error (w_shards fs) j = Some fl -> exists p, snd fl = Some p /\
    mixed (fun g => exists fs' fl', moment fs' /\ nth_error (w_shards fs') j = Some fl' /\ snd fl' = Some g) p.
(** A moment after the files were [dk]: some sessions have ended, and another one is
    somewhere in its work. [room]: a bound on the sessions that have ended. *)
Definition moment_after (u : unicode) (dk : disk) (room : list (list (bytes * doc)) -> Prop) (fs : files) : Prop :=
  exists news dk' docs, since u dk news dk' /\ room news /\ append_stopped u dk' docs fs.
