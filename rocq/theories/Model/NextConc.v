(** Next, down to its lookups, for goroutines that query one open index with a Query each
    (Model/DmdConc has Get). *)
From Verif Require Import Model.Base Model.Address Model.Varint Model.Post Model.Poster Model.Shard Model.Dmd Model.Fnames Model.Index Model.Query Model.DmdConc.
Local Open Scope N_scope.

Definition lift {A} (r : result A) : prog A := Finish r.
Fixpoint pbind {A B} (p : prog A) (k : A -> prog B) : prog B :=
  match p with
  | Finish (Ok a) => k a
  | Finish (Err e) => Finish (Err e)
  | Finish Panic => Finish Panic
  | Finish Loop => Finish Loop
  | Look did c => Look did (fun r => pbind (c r) k)
  end.

Section NextProg.
  Variable grow : nat -> nat.
  Variable ix : index.
  (** query.go:138-152, as in [fill_loop] *)
  Fixpoint fill_prog (fuel : nat) (lim : bool) (file : bytes) (ps : posts) (ds : docs) : prog (docs * posts * bool) :=
    match fuel with
    | O => Finish Loop
    | S k =>
        if lim && negb (docs_len ds <? docs_cap ds)%nat then Finish (Ok (ds, ps, false))
        else match posts_next ps file with
             | Err EOF => Finish (Ok (ds, ps, true))
             | Err EOther => Finish (Err EOther)
             | Panic => Finish Panic
             | Loop => Finish Loop
             | Ok (did, ps) =>
                 Look did (fun r =>
                   match (do! f <- r; do! path <- fn_abs (ix_fnames ix) (f_fid f); put_doc grow lim ds path (f_start f) (f_end f)) with
                   | Ok ds => fill_prog k lim file ps ds
                   | Err e => Finish (Err e)
                   | Panic => Finish Panic
                   | Loop => Finish Loop
                   end)
             end
    end.
  (** query.go:129-153, as in [fill_blot] *)
  Definition fill_blot_prog (fuel : nat) (q : qstate) (dst : blot_entry) (src : read_state) (pos : nat) : prog (blot_entry * qstate) :=
    match nth_error (ix_shards ix) pos with
    | None => Finish Panic
    | Some s =>
        let b := fill_blot_id (q_n q) (q_i q) (u32 (N.of_nat (rs_blot src))) in
        pbind (fill_prog fuel (negb (is_nil (be_docs dst))) (si_file s) (rs_posts src) (be_docs dst)) (fun x =>
          let '(ds, ps, eof) := x in
          let src' := MkReadState (rs_blot src) (rs_at src) (rs_total src) ps in
          let q := MkQ (upd pos (Some src') (q_states q)) (q_i q) (q_n q) (q_nil q) in
          lift (do! q <- (if eof : bool then advance ix q src' pos else Ok q); Ok (MkEntry b ds, q)))
    end.
  (** query.go:92-125, as in [next_iter] *)
  Definition next_iter_prog (fuel : nat) (r : qrun) : prog (qrun * verdict) :=
    let q := r_q r in
    match nth_error (r_dst r) (r_n r) with
    | None => Finish (Ok (r, Return))
    | Some entry =>
        match nth_error (q_states q) (N.to_nat (q_i q)) with
        | None => Finish Panic
        | Some None =>
            let nc := u32 (q_nil q + 1) in
            if nc =? q_n q
            then Finish (Ok (MkRun (MkQ (q_states q) (q_i q) (q_n q) nc) (r_dst r) (r_n r),
                     if (r_n r =? 0)%nat then ReturnEOF else Return))
            else let i := u32 (q_i q + 1) in
                 let i := if i =? q_n q then 0 else i in
                 Finish (Ok (MkRun (MkQ (q_states q) i (q_n q) nc) (r_dst r) (r_n r), Again))
        | Some (Some rs) =>
            let lim := negb (is_nil (be_docs entry)) in
            pbind (fill_blot_prog fuel q entry rs (N.to_nat (q_i q))) (fun x =>
              let '(entry, q) := x in
              lift (if (docs_len (be_docs entry) <=? 1)%nat
                    then do! q <- advance ix q rs (N.to_nat (q_i q));
                         let ds := if lim then match be_docs entry with None => None | Some (_, back) => Some (0%nat, back) end
                                   else None in
                         Ok (MkRun q (upd (r_n r) (MkEntry (be_blot entry) ds) (r_dst r)) (r_n r), Again)
                    else Ok (MkRun q (upd (r_n r) entry (r_dst r)) (S (r_n r)), Again)))
        end
    end.
  Fixpoint next_loop_prog (fuel k : nat) (r : qrun) : prog (qrun * bool) :=
    match k with
    | O => Finish Loop
    | S k' =>
        pbind (next_iter_prog fuel r) (fun x =>
          match x with
          | (r, Again) => next_loop_prog fuel k' r
          | (r, Return) => Finish (Ok (r, false))
          | (r, ReturnEOF) => Finish (Ok (r, true))
          end)
    end.
  Definition next_prog (fuel k : nat) (q : qstate) (dst : list blot_entry) : prog (qrun * bool) :=
    next_loop_prog fuel k (MkRun q dst 0).

  (** A goroutine makes calls one after the other with its own Query; it stops at the first error
      other than io.EOF. *)
  Inductive call := GetBlot (blot : N) (ds : docs) | NextBlots (k : nat) (dst : list blot_entry).
  Inductive answer := Docs (ds : docs) | Blots (dst : list blot_entry) (n : nat) (eof : bool).
  Fixpoint calls_prog (fuel : nat) (q : qstate) (cs : list call) : prog (list answer) :=
    match cs with
    | [] => Finish (Ok [])
    | GetBlot blot ds :: cs =>
        pbind (get_prog grow ix fuel blot ds) (fun ds => pbind (calls_prog fuel q cs) (fun r => Finish (Ok (Docs ds :: r))))
    | NextBlots k dst :: cs =>
        pbind (next_prog fuel k q dst) (fun x => pbind (calls_prog fuel (r_q (fst x)) cs) (fun r =>
          Finish (Ok (Blots (r_dst (fst x)) (r_n (fst x)) (snd x) :: r))))
    end.
End NextProg.
