(** An open index and its queries: index.go:31-76, 269-299, query.go, blot.go. *)
From Verif Require Import Model.Base Model.Post Model.Address Model.Poster Model.Shard Model.Dmd Model.Fnames Model.Config Model.Index.
Local Open Scope N_scope.

(** index.go:31-37, without the lock (Model/Lock); the dmd file is its content. *)
Record index := MkIndex { ix_cfg : config; ix_dmd : bytes; ix_fnames : fnames; ix_shards : list shard_index }.

(** blot.go:30-33. A Go slice of documents is nil or has a length and a backing array whose
    length is the capacity. *)
Definition docs := option (nat * list doc).
Record blot_entry := MkEntry { be_blot : N; be_docs : docs }.
Definition docs_len (d : docs) : nat := match d with None => 0 | Some (n, _) => n end.
Definition docs_cap (d : docs) : nat := match d with None => 0 | Some (_, b) => length b end.
Definition is_nil (d : docs) : bool := match d with None => true | Some _ => false end.
Definition zero_doc : doc := MkDoc [] 0 0 [].

(** blot.go:47-55 followed by the stores of docid2Doc (index.go:295-297), which leave Dat
    alone. [grow n]: by how much append over-allocates a slice of length n. *)
Definition put_doc (grow : nat -> nat) (lim : bool) (ds : docs) (path : bytes) (start end_ : N) : result docs :=
  if lim then
    match ds with
    | Some (n, back) =>
        match nth_error back n with
        | None => Panic                                  (* b.Docs[:n+1] beyond the capacity *)
        | Some old => Ok (Some (S n, upd n (MkDoc path start end_ (d_dat old)) back))
        end
    | None => Panic
    end
  else
    let d := MkDoc path start end_ [] in
    match ds with
    | None => Ok (Some (1%nat, d :: repeat zero_doc (grow 0%nat)))
    | Some (n, back) =>
        if (n <? length back)%nat then Ok (Some (S n, upd n d back))
        else Ok (Some (S n, back ++ d :: repeat zero_doc (grow n)))
    end.

(** index.go:290-299 *)
Definition docid2doc (ix : index) (did : N) : result (bytes * N * N) :=
  do! f <- dmd_lookup (ix_dmd ix) did;
  do! path <- fn_abs (ix_fnames ix) (f_fid f);
  Ok (path, f_start f, f_end f).

Section Query.
  Variable grow : nat -> nat.
  Variable ix : index.

  (** query.go:73-87. [fuel] bounds the number of documents. *)
  Fixpoint get_loop (fuel : nat) (lim : bool) (file : bytes) (ps : posts) (ds : docs) : result docs :=
    match fuel with
    | O => Loop
    | S k =>
        if lim && (docs_len ds =? docs_cap ds)%nat then Ok ds
        else match posts_next ps file with
             | Err EOF => Ok ds
             | Err EOther => Err EOther
             | Panic => Panic
             | Loop => Loop
             | Ok (did, ps) =>
                 do! (path, start, end_) <- docid2doc ix did;
                 do! ds <- put_doc grow lim ds path start end_;
                 get_loop k lim file ps ds
             end
    end.
  (** query.go:63-88 *)
  Definition query_get (fuel : nat) (blot : N) (ds : docs) : result docs :=
    let n := u32 (nlen (ix_shards ix)) in
    do! (shard, shardblot) <- get_address n blot;
    match nth_error (ix_shards ix) (N.to_nat shard) with
    | None => Panic
    | Some s =>
        let rs := read_state_for s (N.to_nat shardblot) in
        get_loop fuel (negb (is_nil ds)) (si_file s) (rs_posts rs) ds
    end.

  (** query.go:26-31 *)
  Record qstate := MkQ { q_states : list (option read_state); q_i : N; q_n : N; q_nil : N }.
  (** query.go:33-45 *)
  Fixpoint set_max_loop (ss : list (option read_state)) (i : N) (max p : N) : N :=
    match ss with
    | [] => p
    | None :: r => set_max_loop r (i + 1) max p
    | Some s :: r => if max <? rs_total s then set_max_loop r (i + 1) (rs_total s) i else set_max_loop r (i + 1) max p
    end.
  Definition set_max (q : qstate) : qstate := MkQ (q_states q) (set_max_loop (q_states q) 0 0 0) (q_n q) (q_nil q).
  (** index.go:269-288 *)
  Definition start_query : qstate :=
    set_max (MkQ (map (fun s => Some (read_state_at s 0)) (ix_shards ix)) 0 (u32 (nlen (ix_shards ix))) 0).

  (** query.go:155-168; the sequence read so far is part of the entry. *)
  Definition advance (q : qstate) (src : read_state) (pos : nat) : result qstate :=
    do! rs <- (if N.of_nat (rs_at src) =? 65535 then Ok None
               else if rs_total src <=? 1 then Ok None
               else match nth_error (ix_shards ix) pos with
                    | None => Panic
                    | Some s => Ok (Some (read_state_at s (rs_at src + 1)))
                    end);
    Ok (set_max (MkQ (upd pos rs (q_states q)) (q_i q) (q_n q) (q_nil q))).

  (** query.go:138-152: [ps] is src.Posts, of a shard with posting file [file]; result:
      the documents, src.Posts afterwards, and whether the end was reached. *)
  Fixpoint fill_loop (fuel : nat) (lim : bool) (file : bytes) (ps : posts) (ds : docs) : result (docs * posts * bool) :=
    match fuel with
    | O => Loop
    | S k =>
        if lim && negb (docs_len ds <? docs_cap ds)%nat then Ok (ds, ps, false)
        else match posts_next ps file with
             | Err EOF => Ok (ds, ps, true)
             | Err EOther => Err EOther
             | Panic => Panic
             | Loop => Loop
             | Ok (did, ps) =>
                 do! (path, start, end_) <- docid2doc ix did;
                 do! ds <- put_doc grow lim ds path start end_;
                 fill_loop k lim file ps ds
             end
    end.
  (** query.go:129-153; src is q.shardStates[pos], so reading from it changes the state. *)
  Definition fill_blot (fuel : nat) (q : qstate) (dst : blot_entry) (src : read_state) (pos : nat)
      : result (blot_entry * qstate) :=
    match nth_error (ix_shards ix) pos with
    | None => Panic
    | Some s =>
        let b := fill_blot_id (q_n q) (q_i q) (u32 (N.of_nat (rs_blot src))) in
        do! (ds, ps, eof) <- fill_loop fuel (negb (is_nil (be_docs dst))) (si_file s) (rs_posts src) (be_docs dst);
        let src' := MkReadState (rs_blot src) (rs_at src) (rs_total src) ps in
        let q := MkQ (upd pos (Some src') (q_states q)) (q_i q) (q_n q) (q_nil q) in
        do! q <- (if eof then advance q src' pos else Ok q);
        Ok (MkEntry b ds, q)
    end.

  (** One round of the loop of Next (query.go:92-125). *)
  Record qrun := MkRun { r_q : qstate; r_dst : list blot_entry; r_n : nat }.
  Inductive verdict := Again | Return | ReturnEOF.
  Definition next_iter (fuel : nat) (r : qrun) : result (qrun * verdict) :=
    let q := r_q r in
    match nth_error (r_dst r) (r_n r) with
    | None => Ok (r, Return)                                     (* n = len(dst) *)
    | Some entry =>
        match nth_error (q_states q) (N.to_nat (q_i q)) with
        | None => Panic
        | Some None =>
            let nc := u32 (q_nil q + 1) in
            if nc =? q_n q
            then Ok (MkRun (MkQ (q_states q) (q_i q) (q_n q) nc) (r_dst r) (r_n r),
                     if (r_n r =? 0)%nat then ReturnEOF else Return)
            else let i := u32 (q_i q + 1) in
                 let i := if i =? q_n q then 0 else i in
                 Ok (MkRun (MkQ (q_states q) i (q_n q) nc) (r_dst r) (r_n r), Again)
        | Some (Some rs) =>
            let lim := negb (is_nil (be_docs entry)) in
            do! (entry, q) <- fill_blot fuel q entry rs (N.to_nat (q_i q));
            if (docs_len (be_docs entry) <=? 1)%nat
            then do! q <- advance q rs (N.to_nat (q_i q));
                 let ds := if lim then match be_docs entry with None => None | Some (_, back) => Some (0%nat, back) end
                           else None in
                 Ok (MkRun q (upd (r_n r) (MkEntry (be_blot entry) ds) (r_dst r)) (r_n r), Again)
            else Ok (MkRun q (upd (r_n r) entry (r_dst r)) (S (r_n r)), Again)
        end
    end.
  (** Next, with at most [k] rounds; [fuel] bounds the length of a posting list. The boolean:
      the error is io.EOF. *)
  Fixpoint next_loop (fuel k : nat) (r : qrun) : result (qrun * bool) :=
    match k with
    | O => Loop
    | S k' =>
        do! (r, v) <- next_iter fuel r;
        match v with
        | Again => next_loop fuel k' r
        | Return => Ok (r, false)
        | ReturnEOF => Ok (r, true)
        end
    end.
  Definition query_next (fuel k : nat) (q : qstate) (dst : list blot_entry) : result (qrun * bool) :=
    next_loop fuel k (MkRun q dst 0).
End Query.
