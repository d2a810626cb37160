(** indexer.go:246-253, doc2Id called by several goroutines at a time: addPath and then
    dmd.Adder.Add, by the steps of Model/PathRace and Model/AddRace. *)
From Verif Require Import Model.Base Model.Dmd Model.Path Model.Fnames Model.AddRace Model.PathRace.
Local Open Scope N_scope.

(** In addPath, or with its result [n] in Adder.Add; the document is from [st] to [en]. *)
Inductive adding_doc := DPath (q : adding) (st en : N) | DRec (n : N) (c : pc).
Section Race.
  (** The capacities append gives for paths and for records. *)
  Variables growp growr : nat -> nat.
  Definition doc_step (s : pset) (m : mem) (t : adding_doc) : pset * mem * adding_doc :=
    match t with
    | DPath (QDone n) st en => (s, m, DRec n (PEnter (MkFields n st en)))
    | DPath q st en => let '(s', q') := path_step growp s q in (s', m, DPath q' st en)
    | DRec n c => let '(m', c') := add_step growr m c in (s, m', DRec n c')
    end.
  (** Goroutine [i] of those at [ts] makes the next step; the schedule says which. *)
  Fixpoint doc_race (sched : list nat) (s : pset) (m : mem) (ts : list adding_doc) : pset * mem * list adding_doc :=
    match sched with
    | [] => (s, m, ts)
    | i :: r => match nth_error ts i with
                | Some t => let '(s', m', t') := doc_step s m t in doc_race r s' m' (upd i t' ts)
                | None => doc_race r s m ts
                end
    end.
End Race.
(** A document by working directory, path, start and end. *)
Record to_add := MkToAdd { ta_cwd : bytes; ta_path : bytes; ta_start : N; ta_end : N }.
Definition begin_doc (d : to_add) : adding_doc := DPath (begin_add (ta_cwd d) (ta_path d)) (ta_start d) (ta_end d).
