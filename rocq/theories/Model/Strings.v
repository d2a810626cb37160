(** The String methods of posts, tokens and path sets (that of Stats is in Model/Inspect). *)
From Coq Require Import String.
From Verif Require Import Model.Base Model.Post Model.Token Model.Hex Model.Output Model.Fnames Spec.Str.
Local Open Scope N_scope.
Local Open Scope list_scope.

(** post/t.go:28-30: fmt.Sprintf("<%d,%x>", p.Docid(), p.Blot()&0xffff) *)
Definition post_string (p : post) : bytes :=
  bs "<" ++ print_dec (post_docid p) ++ bs "," ++ print_hex (N.land (post_blot p) 65535) ++ bs ">".
(** token/t.go:34-45, for the two tags that the tokenizer gives. *)
Definition tag_string (t : tag) : bytes := match t with Word => bs "w" | Other => bs "_" end.
(** token/t.go:54-56: fmt.Sprintf("<token %s: '%s' @%d>", t.Tag, t.Lit, t.Pos) *)
Definition token_string (t : token) : bytes :=
  bs "<token " ++ tag_string (t_tag t) ++ bs ": '" ++ t_lit t ++ bs "' @" ++ print_dec (t_pos t) ++ bs ">".
(** fnames.go:45-52 *)
Fixpoint fn_lines (d : fnames) (ids : list N) : result bytes :=
  match ids with
  | [] => Ok []
  | i :: r => do! abs <- fn_abs d i; do! rest <- fn_lines d r; Ok (abs ++ [10] ++ rest)
  end.
Definition fn_string (d : fnames) : result bytes := fn_lines d (map N.of_nat (seq 0 (List.length d))).
