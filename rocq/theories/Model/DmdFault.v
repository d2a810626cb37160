(** Writing document records when calls of the operating system fail: dmd/adder.go:53-97
    with the error paths. Any number of calls may fail. The error of f.Close, which
    adder.go:82 drops, is not modelled. *)
From Verif Require Import Model.Base Model.Varint Model.Dmd.
Local Open Scope N_scope.

(** What happens during one call of flush: everything succeeds; os.OpenFile fails
    (adder.go:78-81); Seek fails (83-86), the file has been created then if there was none;
    the write of record number [n] puts only its first [k] bytes in the file and returns an
    error (87-93). A [FailWrite] of a record that is not there does no harm. *)
Inductive flush_outcome := FlushDone | FailOpen | FailSeek | FailWrite (n k : nat).

(** adder.go:77-97. The last component says whether nil was returned. On an error t.flushed
    and t.buf stay as they are, while what was written stays in the file. *)
Definition flush_o (a : adder) (file : option bytes) (o : flush_outcome)
  : (adder * option bytes) * bool :=
  match o with
  | FlushDone => (adder_flush a file, true)
  | FailOpen => ((a, file), false)
  | FailSeek => ((a, file_append file []), false)
  | FailWrite n k =>
      match nth_error (flush_writes a) n with
      | None => (adder_flush a file, true)
      | Some w => ((a, file_append file (concat (firstn n (flush_writes a)) ++ firstn k w)), false)
      end
  end.

(** The outcomes of the calls of flush to come; those after the end of the list succeed. *)
Definition next_outcome (os : list flush_outcome) : flush_outcome * list flush_outcome :=
  match os with [] => (FlushDone, []) | o :: r => (o, r) end.

(** adder.go:53-64. [None]: an error was returned. *)
Definition adder_add_o (st : adder * option bytes) (os : list flush_outcome) (d : fields)
  : (adder * option bytes) * list flush_outcome * option N :=
  let '(a, file) := st in
  let '(st, os, ok) :=
    if u32 (nlen (a_buf a)) =? a_rate a
    then let '(o, os) := next_outcome os in let '(st, ok) := flush_o a file o in (st, os, ok)
    else ((a, file), os, true) in
  if negb ok then (st, os, None)
  else
    let '(a, file) := st in
    let n := u32 (nlen (a_buf a)) in
    ((MkAdder (a_flushed a) (a_rate a) (a_buf a ++ [d]), file), os, Some (add32 n (a_flushed a))).

(** adder.go:70-75 *)
Definition adder_close_o (st : adder * option bytes) (os : list flush_outcome)
  : option bytes * bool :=
  let '(a, file) := st in
  match a_buf a with
  | [] => (file, true)
  | _ => let '((_, file), ok) := flush_o a file (fst (next_outcome os)) in (file, ok)
  end.

(** A whole session: NewAdder, Add for every document, whether the ones before succeeded or
    not, Close; the file afterwards, what the calls of Add returned and whether Close
    returned nil. *)
Fixpoint adder_adds_o (st : adder * option bytes) (os : list flush_outcome) (ds : list fields)
  : (adder * option bytes) * list flush_outcome * list (option N) :=
  match ds with
  | [] => (st, os, [])
  | d :: r => let '(st, os, i) := adder_add_o st os d in
              let '(st, os, is) := adder_adds_o st os r in (st, os, i :: is)
  end.
Definition dmd_session_o (file : option bytes) (fr : Z) (ds : list fields) (os : list flush_outcome)
  : result (option bytes * list (option N) * bool) :=
  do! a <- new_adder file fr;
  let '(st, os, ids) := adder_adds_o (a, file) os ds in
  let '(file, ok) := adder_close_o st os in
  Ok (file, ids, ok).
