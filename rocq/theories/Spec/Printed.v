(** How results are written as text, and in JSON. *)
From Coq Require Import String Sorting.Sorted.
From Verif Require Import Model.Base Model.Index Model.Json Spec.Text Spec.Fingerprint Spec.Paths Spec.History Spec.Str.
Local Open Scope N_scope.
Local Open Scope list_scope.

Definition hexadecimal : bytes := bs "0123456789abcdef".
Definition decimal : bytes := bs "0123456789".
(** The digits [s] (of the list [ds]) are the number [v], without zeros in front. *)
Inductive numeral (ds : bytes) : bytes -> N -> Prop :=
  | numeral_one c d : nth_error ds (N.to_nat d) = Some c -> numeral ds [c] d
  | numeral_more s v c d : numeral ds s v -> v <> 0 -> nth_error ds (N.to_nat d) = Some c -> numeral ds (s ++ [c]) (N.of_nat (List.length ds) * v + d).

(** Path, start and end of a document. *)
Definition place := (bytes * N * N)%type.
(** A document: " path@start:end" *)
Inductive shows_doc : place -> bytes -> Prop :=
  | shows_doc_ p s e s' e' : numeral decimal s' s -> numeral decimal e' e -> shows_doc (p, s, e) (bs " " ++ p ++ bs "@" ++ s' ++ bs ":" ++ e').
(** A line for a blot and its documents. *)
Inductive shows_line : N * list place -> bytes -> Prop :=
  | shows_line_ b ds b' ds' : numeral hexadecimal b' b -> Forall2 shows_doc ds ds' -> shows_line (b, ds) (b' ++ concat ds' ++ [10]).
(** A line for a blot alone. *)
Inductive shows_blot : N * list place -> bytes -> Prop :=
  | shows_blot_ b ds b' : numeral hexadecimal b' b -> shows_blot (b, ds) (b' ++ [10]).
(** The text [t] consists of lines for the elements of [es], in order. *)
Definition shows (line : N * list place -> bytes -> Prop) (es : list (N * list place)) (t : bytes) : Prop :=
  exists ls, Forall2 line es ls /\ t = concat ls.

(** The JSON value for a blot and its documents: an array of one object. *)
Inductive value_doc : place -> jval -> Prop :=
  | value_doc_ p s e s' e' : numeral decimal s' s -> numeral decimal e' e ->
      value_doc (p, s, e) (JObj [(bs "Path", JStr p); (bs "Start", JNum s'); (bs "End", JNum e')]).
Inductive value_of : N * list place -> jval -> Prop :=
  | value_of_ b ds b' ds' : numeral decimal b' b -> Forall2 value_doc ds ds' ->
      value_of (b, ds) (JArr [JObj [(bs "Blot", JNum b'); (bs "Docs", JArr ds')]]).

(** [es]: the blots that at least two and at least [T] of the documents have, each with the
    places of these documents in the order they were added; those with more documents first. *)
Definition frequent (H : bytes -> N) (k m n : nat) (docs : list (bytes * doc)) (wss : list (list bytes)) (T : Z) (es : list (N * list place)) : Prop :=
  NoDup (map fst es) /\
  (forall b ds, In (b, ds) es <-> b < N.of_nat n * 65536 /\ (2 <= List.length (carriers H k m n 0 wss b))%nat /\
     (T <= Z.of_nat (List.length (carriers H k m n 0 wss b)))%Z /\ ds = map (place_of docs) (carriers H k m n 0 wss b)) /\
  StronglySorted (fun e e' => (List.length (snd e') <= List.length (snd e))%nat) es.
(** The absolute paths of the documents satisfy [P]. *)
Definition paths_are (P : bytes -> Prop) (docs : list (bytes * doc)) : Prop :=
  Forall (fun p => P (show_abs (spec_abs (fst p) (d_path (snd p))))) docs.
(** No spaces or ends of lines. *)
Definition plain_path (p : bytes) : Prop := ~ In 32 p /\ ~ In 10 p.
(** UTF-8 *)
Definition text_path (p : bytes) : Prop := exists rs, is_text p rs.
