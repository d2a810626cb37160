(** FindBlot on documents as queries return them: index.go:233-267, doc.go:32-36. *)
From Verif Require Import Model.Base Model.Utf8 Model.Token Model.Blotter Model.Config Model.Index Model.Query Model.Cmd.
Local Open Scope N_scope.

(** doc.go:32-36 *)
Definition new_doc (path body : bytes) : doc := MkDoc path 0 0 body.

(** index.go:234-239. A Dat that is not nil but has no bytes is taken for nil here: it has
    no blot, so that the search ends without result either way unless the file has changed. *)
Definition ensure_loaded (fs : files) (d : doc) : result doc :=
  match d_dat d with
  | [] => doc_load fs (d_path d) (d_start d) (d_end d)
  | _ => Ok d
  end.
(** index.go:233-267: the range, and the document, which keeps its text *)
Definition search (u : unicode) (fs : files) (c : config) (blot : N) (d : doc) : result (N * N * doc) :=
  do! d <- ensure_loaded fs d;
  do! rng <- find_blot u c blot d;
  Ok (rng, d).
