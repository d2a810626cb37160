(** cmd/dupi/extract.go: the loop of Run. *)
From Verif Require Import Model.Base Model.Index Model.Query.
Local Open Scope N_scope.

Section Extract.
  Variables (grow : nat -> nat) (ix : index).
  (** extract.go:69-124. [T] is the threshold computed in floating point from the
      statistics (extract.go:61-66, see Model/Stats; here any value).  [blot] is shape[0].Blot, whose
      Docs is nil before each call.  Result: the entries printed, in order, and how the loop
      ends.  The JSON and the plain branch print the same entry when there is one (lines
      86-96: shp2 is shape, the loop leaves it as it is; an entry with fewer than two documents
      would be printed in JSON only).  An io.EOF of Next is taken for the end of the blots
      (line 71), also one that comes from the table of documents (query.go:147-149): n is 0
      then, as shape has one element.  At most [calls] calls of at most [k] rounds each. *)
  Fixpoint extract_steps (json : bool) (T : Z) (fuel k calls : nat) (q : qstate) (blot : N) : list blot_entry * result unit :=
    match calls with
    | O => ([], Loop)
    | S calls =>
        match query_next grow ix fuel k q [MkEntry blot None] with
        | Err EOF => ([], Ok tt)
        | Err EOther => ([], Err EOther)
        | Panic => ([], Panic)
        | Loop => ([], Loop)
        | Ok (r, eof) =>
            if (eof : bool) then ([], if (r_n r =? 0)%nat then Ok tt else Panic)
            else if (r_n r =? 0)%nat then ([], Err EOther)
            else match r_dst r with
                 | e :: _ =>
                     if (Z.of_nat (docs_len (be_docs e)) <? T)%Z then ([], Ok tt)
                     else let '(out, end_) := extract_steps json T fuel k calls (r_q r) (be_blot e) in
                          (if json || (1 <? docs_len (be_docs e))%nat then e :: out else out, end_)
                 | [] => ([], Panic)
                 end
        end
    end.
  (** What is printed by a run without an error. *)
  Definition extract_loop (json : bool) (T : Z) (fuel k calls : nat) (q : qstate) (blot : N) : result (list blot_entry) :=
    let '(out, end_) := extract_steps json T fuel k calls q blot in do! _ <- end_; Ok out.
  Definition extract (json : bool) (T : Z) (fuel k calls : nat) : result (list blot_entry) :=
    extract_loop json T fuel k calls (start_query ix) 0.
End Extract.
