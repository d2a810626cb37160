(** Queries when system calls that read fail (an I/O error, not the end of the file): query.go,
    index.go:290-299, dmd/t.go:46-62 and internal/shard/posts.go:49-98. [bad] tells of each
    reading of a chunk and of each look-up of a document number whether it fails; there are
    several calls in each of them, and wherever it fails nothing but an error comes of it:
    readNext changes its state only when all has been read (posts.go:89-97), and docid2Doc
    stores only then (index.go:291-297). *)
From Verif Require Import Model.Base Model.Post Model.Address Model.Poster Model.Shard Model.Dmd Model.Fnames Model.Config Model.Index Model.Query.
Local Open Scope N_scope.

(** What comes of it: the result, or a failed read, with the state it leaves. *)
Inductive attempt (A S : Type) := Did (r : result A) | Failed (s : S).
Arguments Did {A S} _.
Arguments Failed {A S} _.
(** The next read. When [bad] has ended, nothing fails any more. *)
Definition next_read (bad : list bool) : bool * list bool := match bad with [] => (false, []) | b :: r => (b, r) end.

(** posts.go:74-87: a chunk is read only if the last one is used up. *)
Definition posts_next_r (bad : list bool) (ps : posts) (file : bytes) : attempt (N * posts) unit * list bool :=
  if (r_i ps =? length (r_docids ps))%nat && negb (r_nextpos ps =? -1)%Z
  then let '(b, bad) := next_read bad in ((if b then Failed tt else Did (posts_next ps file)), bad)
  else (Did (posts_next ps file), bad).
(** index.go:290-294 *)
Definition docid2doc_r (bad : list bool) (ix : index) (did : N) : attempt (bytes * N * N) unit * list bool :=
  let '(b, bad) := next_read bad in ((if b then Failed tt else Did (docid2doc ix did)), bad).
(** blot.go:47-55 alone: the document is there before it is looked up (query.go:84, 147). *)
Definition put_slot (grow : nat -> nat) (lim : bool) (ds : docs) : docs :=
  if lim then match ds with Some (n, back) => Some (S n, back) | None => None end
  else match put_doc grow false ds [] 0 0 with Ok ds => ds | _ => ds end.

Section Query.
  Variables (grow : nat -> nat) (ix : index).

  (** query.go:73-87 *)
  Fixpoint get_loop_r (fuel : nat) (bad : list bool) (lim : bool) (file : bytes) (ps : posts) (ds : docs) : attempt docs docs * list bool :=
    match fuel with
    | O => (Did Loop, bad)
    | S k =>
        if lim && (docs_len ds =? docs_cap ds)%nat then (Did (Ok ds), bad)
        else match posts_next_r bad ps file with
             | (Failed _, bad) => (Failed ds, bad)
             | (Did (Err EOF), bad) => (Did (Ok ds), bad)
             | (Did (Err EOther), bad) => (Did (Err EOther), bad)
             | (Did Panic, bad) => (Did Panic, bad)
             | (Did Loop, bad) => (Did Loop, bad)
             | (Did (Ok (did, ps)), bad) =>
                 match docid2doc_r bad ix did with
                 | (Failed _, bad) => (Failed (put_slot grow lim ds), bad)
                 | (Did d, bad) =>
                     match (do! (path, start, end_) <- d; put_doc grow lim ds path start end_) with
                     | Ok ds => get_loop_r k bad lim file ps ds
                     | Err e => (Did (Err e), bad)
                     | Panic => (Did Panic, bad)
                     | Loop => (Did Loop, bad)
                     end
                 end
             end
    end.
  (** query.go:63-88; on a failure the documents got so far stay in the Blot. *)
  Definition query_get_r (fuel : nat) (bad : list bool) (blot : N) (ds : docs) : attempt docs docs * list bool :=
    match get_address (u32 (nlen (ix_shards ix))) blot with
    | Ok (shard, shardblot) =>
        match nth_error (ix_shards ix) (N.to_nat shard) with
        | None => (Did Panic, bad)
        | Some s => get_loop_r fuel bad (negb (is_nil ds)) (si_file s) (rs_posts (read_state_for s (N.to_nat shardblot))) ds
        end
    | Err e => (Did (Err e), bad)
    | Panic => (Did Panic, bad)
    | Loop => (Did Loop, bad)
    end.

  (** query.go:138-152 *)
  Fixpoint fill_loop_r (fuel : nat) (bad : list bool) (lim : bool) (file : bytes) (ps : posts) (ds : docs)
      : attempt (docs * posts * bool) (docs * posts) * list bool :=
    match fuel with
    | O => (Did Loop, bad)
    | S k =>
        if lim && negb (docs_len ds <? docs_cap ds)%nat then (Did (Ok (ds, ps, false)), bad)
        else match posts_next_r bad ps file with
             | (Failed _, bad) => (Failed (ds, ps), bad)
             | (Did (Err EOF), bad) => (Did (Ok (ds, ps, true)), bad)
             | (Did (Err EOther), bad) => (Did (Err EOther), bad)
             | (Did Panic, bad) => (Did Panic, bad)
             | (Did Loop, bad) => (Did Loop, bad)
             | (Did (Ok (did, ps)), bad) =>
                 match docid2doc_r bad ix did with
                 | (Failed _, bad) => (Failed (put_slot grow lim ds, ps), bad)
                 | (Did d, bad) =>
                     match (do! (path, start, end_) <- d; put_doc grow lim ds path start end_) with
                     | Ok ds => fill_loop_r k bad lim file ps ds
                     | Err e => (Did (Err e), bad)
                     | Panic => (Did Panic, bad)
                     | Loop => (Did Loop, bad)
                     end
                 end
             end
    end.
  (** query.go:129-153: the blot is stored first, and src keeps its place in the list. *)
  Definition fill_blot_r (fuel : nat) (bad : list bool) (q : qstate) (dst : blot_entry) (src : read_state) (pos : nat)
      : attempt (blot_entry * qstate) (blot_entry * qstate) * list bool :=
    match nth_error (ix_shards ix) pos with
    | None => (Did Panic, bad)
    | Some s =>
        let b := fill_blot_id (q_n q) (q_i q) (u32 (N.of_nat (rs_blot src))) in
        let src' ps := MkReadState (rs_blot src) (rs_at src) (rs_total src) ps in
        let q' ps := MkQ (upd pos (Some (src' ps)) (q_states q)) (q_i q) (q_n q) (q_nil q) in
        match fill_loop_r fuel bad (negb (is_nil (be_docs dst))) (si_file s) (rs_posts src) (be_docs dst) with
        | (Failed (ds, ps), bad) => (Failed (MkEntry b ds, q' ps), bad)
        | (Did r, bad) =>
            (Did (do! (ds, ps, eof) <- r;
                  do! q <- (if eof then advance ix (q' ps) (src' ps) pos else Ok (q' ps));
                  Ok (MkEntry b ds, q)), bad)
        end
    end.
  (** One round of Next (query.go:92-125). *)
  Definition next_iter_r (fuel : nat) (bad : list bool) (r : qrun) : attempt (qrun * verdict) qrun * list bool :=
    let q := r_q r in
    match nth_error (r_dst r) (r_n r) with
    | None => (Did (Ok (r, Return)), bad)
    | Some entry =>
        match nth_error (q_states q) (N.to_nat (q_i q)) with
        | None => (Did Panic, bad)
        | Some None =>
            let nc := u32 (q_nil q + 1) in
            if nc =? q_n q
            then (Did (Ok (MkRun (MkQ (q_states q) (q_i q) (q_n q) nc) (r_dst r) (r_n r),
                           if (r_n r =? 0)%nat then ReturnEOF else Return)), bad)
            else let i := u32 (q_i q + 1) in
                 let i := if i =? q_n q then 0 else i in
                 (Did (Ok (MkRun (MkQ (q_states q) i (q_n q) nc) (r_dst r) (r_n r), Again)), bad)
        | Some (Some rs) =>
            let lim := negb (is_nil (be_docs entry)) in
            match fill_blot_r fuel bad q entry rs (N.to_nat (q_i q)) with
            | (Failed (entry, q), bad) => (Failed (MkRun q (upd (r_n r) entry (r_dst r)) (r_n r)), bad)
            | (Did x, bad) =>
                (Did (do! (entry, q) <- x;
                      if (docs_len (be_docs entry) <=? 1)%nat
                      then do! q <- advance ix q rs (N.to_nat (q_i q));
                           let ds := if lim then match be_docs entry with None => None | Some (_, back) => Some (0%nat, back) end
                                     else None in
                           Ok (MkRun q (upd (r_n r) (MkEntry (be_blot entry) ds) (r_dst r)) (r_n r), Again)
                      else Ok (MkRun q (upd (r_n r) entry (r_dst r)) (S (r_n r)), Again)), bad)
            end
        end
    end.
  Fixpoint next_loop_r (fuel k : nat) (bad : list bool) (r : qrun) : attempt (qrun * bool) qrun * list bool :=
    match k with
    | O => (Did Loop, bad)
    | S k' =>
        match next_iter_r fuel bad r with
        | (Failed r, bad) => (Failed r, bad)
        | (Did (Ok (r, Again)), bad) => next_loop_r fuel k' bad r
        | (Did (Ok (r, Return)), bad) => (Did (Ok (r, false)), bad)
        | (Did (Ok (r, ReturnEOF)), bad) => (Did (Ok (r, true)), bad)
        | (Did (Err e), bad) => (Did (Err e), bad)
        | (Did Panic, bad) => (Did Panic, bad)
        | (Did Loop, bad) => (Did Loop, bad)
        end
    end.
  (** Query.Next; [Failed r]: it returns the error of the read, and r_n r entries are full. *)
  Definition query_next_r (fuel k : nat) (bad : list bool) (q : qstate) (dst : list blot_entry) : attempt (qrun * bool) qrun * list bool :=
    next_loop_r fuel k bad (MkRun q dst 0).
End Query.
