(** Goroutines that query one open index. The index is only read, except for one thing: the
    position of the file that Lookup seeks and reads (dmd/t.go:50-65). The posting files are
    read with ReadAt (internal/shard/posts.go:44,90), which does not use the position. *)
From Verif Require Import Model.Base Model.Address Model.Varint Model.Post Model.Poster Model.Shard Model.Dmd Model.Fnames Model.Index Model.Query.
Local Open Scope N_scope.

(** What a goroutine does, down to its lookups. *)
Inductive prog (A : Type) :=
  | Finish (r : result A)
  | Look (did : N) (k : result fields -> prog A).
Arguments Finish {A}. Arguments Look {A}.
(** Alone, with the dmd file [f]. *)
Fixpoint alone {A} (f : bytes) (p : prog A) : result A :=
  match p with Finish r => r | Look did k => alone f (k (dmd_lookup f did)) end.

(** query.go:63-88, as in [get_loop] and [query_get] *)
Fixpoint get_prog_loop (grow : nat -> nat) (ix : index) (fuel : nat) (lim : bool) (file : bytes) (ps : posts) (ds : docs) : prog docs :=
  match fuel with
  | O => Finish Loop
  | S k =>
      if lim && (docs_len ds =? docs_cap ds)%nat then Finish (Ok ds)
      else match posts_next ps file with
           | Err EOF => Finish (Ok ds)
           | Err EOther => Finish (Err EOther)
           | Panic => Finish Panic
           | Loop => Finish Loop
           | Ok (did, ps) =>
               Look did (fun r =>
                 match (do! f <- r; do! path <- fn_abs (ix_fnames ix) (f_fid f); put_doc grow lim ds path (f_start f) (f_end f)) with
                 | Ok ds => get_prog_loop grow ix k lim file ps ds
                 | Err e => Finish (Err e)
                 | Panic => Finish Panic
                 | Loop => Finish Loop
                 end)
           end
  end.
Definition get_prog (grow : nat -> nat) (ix : index) (fuel : nat) (blot : N) (ds : docs) : prog docs :=
  let n := u32 (nlen (ix_shards ix)) in
  match get_address n blot with
  | Ok (shard, shardblot) =>
      match nth_error (ix_shards ix) (N.to_nat shard) with
      | None => Finish Panic
      | Some s =>
          let rs := read_state_for s (N.to_nat shardblot) in
          get_prog_loop grow ix fuel (negb (is_nil ds)) (si_file s) (rs_posts rs) ds
      end
  | Err e => Finish (Err e)
  | Panic => Finish Panic
  | Loop => Finish Loop
  end.

(** A goroutine between file operations: about to seek (or finished), or in io.ReadFull with
    [got] read so far. [h] is the open file it uses: goroutines with the same Index have the
    same one. *)
Inductive doing (A : Type) :=
  | Running (p : prog A)
  | Reading (got : bytes) (k : result fields -> prog A).
Arguments Running {A}. Arguments Reading {A}.
Record goroutine (A : Type) := MkGo { g_h : nat; g_do : doing A }.
Arguments MkGo {A}. Arguments g_h {A}. Arguments g_do {A}.
(** The file positions, and the goroutines. *)
Definition cstate (A : Type) : Type := (nat -> nat) * list (goroutine A).
Definition set_pos (pos : nat -> nat) (h v : nat) : nat -> nat := fun h' => if (h' =? h)%nat then v else pos h'.

(** One file operation (a seek or a read is one system call): dmd/t.go:52 and, in ReadFull,
    t.go:57. A read returns what there is up to the end of the file, at most what is asked. *)
Inductive cstep {A} (f : bytes) : nat -> cstate A -> cstate A -> Prop :=
  | step_seek i pos gs h did k :
      nth_error gs i = Some (MkGo h (Running (Look did k))) ->
      cstep f i (pos, gs) (set_pos pos h (N.to_nat did * 12), upd i (MkGo h (Reading [] k)) gs)
  | step_read i pos gs h got k b :
      nth_error gs i = Some (MkGo h (Reading got k)) ->
      b = firstn (12 - length got) (skipn (pos h) f) ->
      cstep f i (pos, gs) (set_pos pos h (pos h + length b),
        upd i (MkGo h
          (if (length (got ++ b) =? 12)%nat
           then Running (k (Ok (MkFields (be32 (sub 0 4 (got ++ b))) (be32 (sub 4 8 (got ++ b))) (be32 (sub 8 12 (got ++ b))))))
           else match b with
                | [] => Running (k (Err (match got with [] => EOF | _ => EOther end)))
                | _ => Reading (got ++ b) k
                end)) gs).
Inductive csteps {A} (f : bytes) (allowed : nat -> cstate A -> Prop) : cstate A -> cstate A -> Prop :=
  | csteps_refl st : csteps f allowed st st
  | csteps_step i st st1 st2 : csteps f allowed st st1 -> allowed i st1 -> cstep f i st1 st2 -> csteps f allowed st st2.
Definition any {A} : nat -> cstate A -> Prop := fun _ _ => True.

(** All start at once; the positions may be anything. *)
Definition cstart {A} (ps : list (nat * prog A)) : list (goroutine A) := map (fun p => MkGo (fst p) (Running (snd p))) ps.
