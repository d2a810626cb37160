(** Next of a query (query.go:90-153) where every read of a file happens at a moment of its
    own, as Model/Moments.v has it for Get. *)
From Verif Require Import Model.Base Model.Utf8 Model.Post Model.Address Model.Varint Model.Poster Model.Shard Model.Index Model.Query Model.Session Model.Crash Model.Live Model.Moments.
Local Open Scope N_scope.

(** [now t]: the files as the read with the number [t] sees them. Each function also gives
    the number of the next read. *)
Section Next.
  Variable grow : nat -> nat.
  Variable ix : index.
  Variable now : nat -> files.
  (** query.go:133-152 *)
  Fixpoint fill_loop_during (fuel t : nat) (lim : bool) (j : nat) (ps : posts) (ds : docs) : result (docs * posts * bool * nat) :=
    match fuel with
    | O => Loop
    | S k =>
        if lim && negb (docs_len ds <? docs_cap ds)%nat then Ok (ds, ps, false, t)
        else match posts_next_during (posting ix now j) t ps with
             | Err EOF => Ok (ds, ps, true, t)
             | Err EOther => Err EOther
             | Panic => Panic
             | Loop => Loop
             | Ok (did, ps, t) =>
                 do! (path, start, end_) <- docid2doc (live ix (now t)) did;
                 do! ds <- put_doc grow lim ds path start end_;
                 fill_loop_during k (S t) lim j ps ds
             end
    end.
  (** query.go:129-153; what [advance] uses of the index was read when it was opened. *)
  Definition fill_blot_during (fuel t : nat) (q : qstate) (dst : blot_entry) (src : read_state) (pos : nat)
      : result (blot_entry * qstate * nat) :=
    match nth_error (ix_shards ix) pos with
    | None => Panic
    | Some _ =>
        let b := fill_blot_id (q_n q) (q_i q) (u32 (N.of_nat (rs_blot src))) in
        do! (ds, ps, eof, t) <- fill_loop_during fuel t (negb (is_nil (be_docs dst))) pos (rs_posts src) (be_docs dst);
        let src' := MkReadState (rs_blot src) (rs_at src) (rs_total src) ps in
        let q := MkQ (upd pos (Some src') (q_states q)) (q_i q) (q_n q) (q_nil q) in
        do! q <- (if eof then advance ix q src' pos else Ok q);
        Ok (MkEntry b ds, q, t)
    end.
  (** One round of the loop of Next (query.go:92-125). *)
  Definition next_iter_during (fuel t : nat) (r : qrun) : result (qrun * verdict * nat) :=
    let q := r_q r in
    match nth_error (r_dst r) (r_n r) with
    | None => Ok (r, Return, t)
    | Some entry =>
        match nth_error (q_states q) (N.to_nat (q_i q)) with
        | None => Panic
        | Some None =>
            let nc := u32 (q_nil q + 1) in
            if nc =? q_n q
            then Ok (MkRun (MkQ (q_states q) (q_i q) (q_n q) nc) (r_dst r) (r_n r),
                     if (r_n r =? 0)%nat then ReturnEOF else Return, t)
            else let i := u32 (q_i q + 1) in
                 let i := if i =? q_n q then 0 else i in
                 Ok (MkRun (MkQ (q_states q) i (q_n q) nc) (r_dst r) (r_n r), Again, t)
        | Some (Some rs) =>
            let lim := negb (is_nil (be_docs entry)) in
            do! (entry, q, t) <- fill_blot_during fuel t q entry rs (N.to_nat (q_i q));
            if (docs_len (be_docs entry) <=? 1)%nat
            then do! q <- advance ix q rs (N.to_nat (q_i q));
                 let ds := if lim then match be_docs entry with None => None | Some (_, back) => Some (0%nat, back) end
                           else None in
                 Ok (MkRun q (upd (r_n r) (MkEntry (be_blot entry) ds) (r_dst r)) (r_n r), Again, t)
            else Ok (MkRun q (upd (r_n r) entry (r_dst r)) (S (r_n r)), Again, t)
        end
    end.
  (** query.go:90-127; the boolean: the error is io.EOF. *)
  Fixpoint next_loop_during (fuel k t : nat) (r : qrun) : result (qrun * bool * nat) :=
    match k with
    | O => Loop
    | S k' =>
        do! (r, v, t) <- next_iter_during fuel t r;
        match v with
        | Again => next_loop_during fuel k' t r
        | Return => Ok (r, false, t)
        | ReturnEOF => Ok (r, true, t)
        end
    end.
  Definition query_next_during (fuel k t : nat) (q : qstate) (dst : list blot_entry) : result (qrun * bool * nat) :=
    next_loop_during fuel k t (MkRun q dst 0).
  (** Calls of Next one after the other with destinations that are [ok]; all they returned. *)
  Inductive queried_during (fuel : nat) (ok : list blot_entry -> Prop) : qstate -> nat -> list blot_entry -> Prop :=
    | queried_during_start : queried_during fuel ok (start_query ix) 0 []
    | queried_during_next q t out dst k r eof t' : queried_during fuel ok q t out -> ok dst ->
        query_next_during fuel k t q dst = Ok (r, eof, t') -> queried_during fuel ok (r_q r) t' (out ++ firstn (r_n r) (r_dst r)).
End Next.
