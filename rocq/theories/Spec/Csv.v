(** Comma-separated values, after RFC 4180 (lines may also end with a newline only, and there
    may be empty lines). *)
From Coq Require Import List NArith.
Import ListNotations.
Local Open Scope N_scope.

(** A field as it is, without quotes: no commas, line ends, or quote at the start. (The RFC has no
    quotes in it at all.) *)
Definition plain (v : list N) : Prop := ~ In 44 v /\ ~ In 10 v /\ ~ In 13 v /\ forall r, v <> 34 :: r.
(** In quotes, the quotes of the value written twice. *)
Inductive doubled : list N -> list N -> Prop :=
  | doubled_nil : doubled [] []
  | doubled_quote v t : doubled v t -> doubled (34 :: v) (34 :: 34 :: t)
  | doubled_other c v t : c <> 34 -> doubled v t -> doubled (c :: v) (c :: t).
Inductive field_text : list N -> list N -> Prop :=
  | text_plain v : plain v -> field_text v v
  | text_quoted v t : doubled v t -> field_text v (34 :: t ++ [34]).
(** One field or more, with commas between them. *)
Inductive record_text : list (list N) -> list N -> Prop :=
  | text_one v t : field_text v t -> record_text [v] t
  | text_more v t vs ts : field_text v t -> record_text vs ts -> record_text (v :: vs) (t ++ 44 :: ts).
Inductive line_end : list N -> Prop := line_lf : line_end [10] | line_crlf : line_end [13; 10].
(** Records, each with a line end; empty lines. *)
Inductive lines_text : list (list (list N)) -> list N -> Prop :=
  | lines_none : lines_text [] []
  | lines_empty e rs t : line_end e -> lines_text rs t -> lines_text rs (e ++ t)
  | lines_record r tr e rs t : record_text r tr -> tr <> [] -> line_end e -> lines_text rs t -> lines_text (r :: rs) (tr ++ e ++ t).
(** A file: the last record may be without a line end. *)
Inductive csv_text : list (list (list N)) -> list N -> Prop :=
  | csv_ended rs t : lines_text rs t -> csv_text rs t
  | csv_open rs t r tr : lines_text rs t -> record_text r tr -> tr <> [] -> csv_text (rs ++ [r]) (t ++ tr).

(** Line ends of both kinds become newlines. *)
Inductive newlines : list N -> list N -> Prop :=
  | newlines_nil : newlines [] []
  | newlines_crlf v w : newlines v w -> newlines (13 :: 10 :: v) (10 :: w)
  | newlines_cr v w : (forall r, v <> 10 :: r) -> newlines v w -> newlines (13 :: v) (13 :: w)
  | newlines_other c v w : c <> 13 -> newlines v w -> newlines (c :: v) (c :: w).
(** The records with two fields that [rs] is. *)
Definition pairs (rs : list (list (list N))) (ps : list (list N * list N)) : Prop := rs = map (fun p => [fst p; snd p]) ps.
