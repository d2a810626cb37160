(** cmd/dupenron/main.go:98-132, on the records that encoding/csv gives (Model/Csv.v). *)
From Verif Require Import Model.Base Model.Index.
Local Open Scope N_scope.

(** bytes.Index(msg, "\n\n") *)
Fixpoint blank_line (msg : bytes) : option nat :=
  match msg with
  | [] => None
  | c :: r =>
      match r with
      | d :: _ => if (c =? 10) && (d =? 10) then Some 0%nat else option_map S (blank_line r)
      | [] => None
      end
  end.
(** main.go:115-125: the document of a record and the offset for the next one. uint32(ibody)
    is 2^32-1 if there is no empty line. *)
Definition enron_doc (fname : bytes) (offset : N) (name msg : bytes) : doc * N :=
  let ibody := match blank_line msg with None => 4294967295 | Some i => u32 (N.of_nat i) end in
  let dat := match blank_line msg with None => msg | Some i => skipn (i + 2) msg end in
  let start := add32 (add32 (add32 offset ibody) 2) (u32 (nlen name)) in
  let end_ := add32 offset (u32 (nlen dat)) in
  (MkDoc fname start end_ dat, end_).
(** main.go:107-131: the documents given to Add *)
Fixpoint enron_docs (fname : bytes) (offset : N) (rcds : list (bytes * bytes)) : list doc :=
  match rcds with
  | [] => []
  | (name, msg) :: r => let '(d, offset) := enron_doc fname offset name msg in d :: enron_docs fname offset r
  end.
