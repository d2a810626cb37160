(** query.go:90-168: Next called by several goroutines that share one Query, with no lock. A step
    is one round of Next up to the call of fillBlot, one ReadState.Next, one docid2Doc, one
    advance, or the rest of a round. This is kinder than the code, where each of them accesses
    the shared variables several times; and a lookup gives the record asked for (C43 is about
    that). *)
From Verif Require Import Model.Base Model.Post Model.Address Model.Poster Model.Shard Model.Dmd Model.Fnames Model.Config Model.Index Model.Query.
Local Open Scope N_scope.

(** query.go:26-31: shardStates are pointers, to the read states ever made. *)
Record shared := MkShared { h_states : list read_state; h_ptrs : list (option nat); h_i : N; h_n : N; h_nil : N }.
(** The state of the Query when nobody is changing it. *)
Definition no_state : read_state := MkReadState 0 0 0 (new_posts (-1)).
Definition qstate_of (h : shared) : qstate :=
  MkQ (map (option_map (fun p => nth p (h_states h) no_state)) (h_ptrs h)) (h_i h) (h_n h) (h_nil h).
(** A Query that several goroutines have got. *)
Definition share (q : qstate) : shared :=
  MkShared (map (fun o => match o with Some r => r | None => no_state end) (q_states q))
    (map (fun x => option_map (fun _ => fst x) (snd x)) (combine (seq 0 (length (q_states q))) (q_states q))) (q_i q) (q_n q) (q_nil q).

Inductive npc :=
| NTop                              (* query.go:92-111, 136-137 *)
| NRead (p pos : nat)               (* 138-139: src is read state p *)
| NDoc (p pos : nat) (did : N)      (* 146 *)
| NAdv (p pos : nat)                (* 141 *)
| NOut (p : nat)                    (* 115-124 *)
| NEnd (eof : bool)
| NFail (r : result unit).
(** The goroutine: dst and n of Next; lim, which is the same in Next and fillBlot. *)
Record iterating := MkIter { g_pc : npc; g_lim : bool; g_dst : list blot_entry; g_n : nat }.
Definition call_next (dst : list blot_entry) : iterating := MkIter NTop false dst 0.
Definition fails {A} (r : result A) : npc :=
  NFail match r with Ok _ => Ok tt | Err e => Err e | Panic => Panic | Loop => Loop end.
Definition at_pc (c : npc) (g : iterating) : iterating := MkIter c (g_lim g) (g_dst g) (g_n g).
Definition set_entry (e : blot_entry) (g : iterating) : iterating := MkIter (g_pc g) (g_lim g) (upd (g_n g) e (g_dst g)) (g_n g).

Section Race.
  Variable grow : nat -> nat.
  Variable ix : index.
  (** query.go:155-168: a read state of its own for every call *)
  Definition move_on (h : shared) (src : read_state) (pos : nat) : result shared :=
    do! h <- (if N.of_nat (rs_at src) =? 65535 then Ok (MkShared (h_states h) (upd pos None (h_ptrs h)) (h_i h) (h_n h) (h_nil h))
              else if rs_total src <=? 1 then Ok (MkShared (h_states h) (upd pos None (h_ptrs h)) (h_i h) (h_n h) (h_nil h))
              else match nth_error (ix_shards ix) pos with
                   | None => Panic
                   | Some s => Ok (MkShared (h_states h ++ [read_state_at s (rs_at src + 1)]) (upd pos (Some (length (h_states h))) (h_ptrs h)) (h_i h) (h_n h) (h_nil h))
                   end);
    Ok (MkShared (h_states h) (h_ptrs h) (set_max_loop (q_states (qstate_of h)) 0 0 0) (h_n h) (h_nil h)).
  Definition next_step (h : shared) (g : iterating) : shared * iterating :=
    match nth_error (g_dst g) (g_n g) with
    | None => (h, match g_pc g with NTop => at_pc (NEnd false) g | _ => g end)         (* n = len(dst) *)
    | Some e =>
        match g_pc g with
        | NTop =>
            match nth_error (h_ptrs h) (N.to_nat (h_i h)) with
            | None => (h, at_pc (NFail Panic) g)
            | Some None =>
                let nc := u32 (h_nil h + 1) in
                if nc =? h_n h then (MkShared (h_states h) (h_ptrs h) (h_i h) (h_n h) nc, at_pc (NEnd (g_n g =? 0)%nat) g)
                else let i := u32 (h_i h + 1) in
                     (MkShared (h_states h) (h_ptrs h) (if i =? h_n h then 0 else i) (h_n h) nc, g)
            | Some (Some p) =>
                match nth_error (ix_shards ix) (N.to_nat (h_i h)) with
                | None => (h, at_pc (NFail Panic) g)
                | Some _ =>
                    let b := fill_blot_id (h_n h) (h_i h) (u32 (N.of_nat (rs_blot (nth p (h_states h) no_state)))) in
                    (h, MkIter (NRead p (N.to_nat (h_i h))) (negb (is_nil (be_docs e))) (upd (g_n g) (MkEntry b (be_docs e)) (g_dst g)) (g_n g))
                end
            end
        | NRead p pos =>
            if g_lim g && negb (docs_len (be_docs e) <? docs_cap (be_docs e))%nat then (h, at_pc (NOut p) g)
            else
              let src := nth p (h_states h) no_state in
              match posts_next (rs_posts src) (match nth_error (ix_shards ix) pos with Some s => si_file s | None => [] end) with
              | Err EOF => (h, at_pc (NAdv p pos) g)
              | Ok (did, ps) =>
                  (MkShared (upd p (MkReadState (rs_blot src) (rs_at src) (rs_total src) ps) (h_states h)) (h_ptrs h) (h_i h) (h_n h) (h_nil h), at_pc (NDoc p pos did) g)
              | r => (h, at_pc (fails r) g)
              end
        | NDoc p pos did =>
            match (do! (path, start, end_) <- docid2doc ix did; put_doc grow (g_lim g) (be_docs e) path start end_) with
            | Ok ds => (h, at_pc (NRead p pos) (set_entry (MkEntry (be_blot e) ds) g))
            | r => (h, at_pc (fails r) g)
            end
        | NAdv p pos =>
            match move_on h (nth p (h_states h) no_state) pos with
            | Ok h' => (h', at_pc (NOut p) g)
            | r => (h, at_pc (fails r) g)
            end
        | NOut p =>
            if (docs_len (be_docs e) <=? 1)%nat
            then match move_on h (nth p (h_states h) no_state) (N.to_nat (h_i h)) with
                 | Ok h' =>
                     let ds := if g_lim g then match be_docs e with None => None | Some (_, back) => Some (0%nat, back) end else None in
                     (h', at_pc NTop (set_entry (MkEntry (be_blot e) ds) g))
                 | r => (h, at_pc (fails r) g)
                 end
            else (h, MkIter NTop (g_lim g) (g_dst g) (S (g_n g)))
        | _ => (h, g)
        end
    end.
  (** Goroutine [i] of those at [gs] makes the next step; the schedule says which. *)
  Fixpoint next_race (sched : list nat) (h : shared) (gs : list iterating) : shared * list iterating :=
    match sched with
    | [] => (h, gs)
    | i :: r => match nth_error gs i with
                | Some g => let '(h', g') := next_step h g in next_race r h' (upd i g' gs)
                | None => next_race r h gs
                end
    end.
End Race.
