(** Text: Unicode scalar values, UTF-8, and maximal runs of word characters. *)
From Verif Require Import Model.Base Model.Utf8.
Local Open Scope N_scope.

Definition scalar (r : N) : Prop := r < 55296 \/ (57344 <= r /\ r < 1114112).

(** The UTF-8 encoding (RFC 3629). *)
Definition utf8 (r : N) : bytes :=
  if r <? 128 then [r]
  else if r <? 2048 then [192 + r / 64; 128 + r mod 64]
  else if r <? 65536 then [224 + r / 4096; 128 + (r / 64) mod 64; 128 + r mod 64]
  else [240 + r / 262144; 128 + (r / 4096) mod 64; 128 + (r / 64) mod 64; 128 + r mod 64].
Definition utf8s (rs : list N) : bytes := concat (map utf8 rs).

(** A text: the characters [rs] written in UTF-8. *)
Definition is_text (d : bytes) (rs : list N) : Prop := Forall scalar rs /\ d = utf8s rs.

(** The maximal runs of characters on which [cls] is constant. *)
Fixpoint runs (cls : N -> bool) (rs : list N) : list (bool * list N) :=
  match rs with
  | [] => []
  | r :: t =>
      match runs cls t with
      | (b, run) :: rest =>
          if Bool.eqb b (cls r) then (b, r :: run) :: rest else (cls r, [r]) :: (b, run) :: rest
      | [] => [(cls r, [r])]
      end
  end.
(** The words: the runs of word characters, in UTF-8. *)
Definition words (cls : N -> bool) (rs : list N) : list bytes :=
  map (fun br => utf8s (snd br)) (filter fst (runs cls rs)).

(** The words of a document's data: of its text without the last character (the tokenizer
    never looks past the start of the last character), or none if it is not a text. *)
Definition doc_words (cls : N -> bool) (d : bytes) (ws : list bytes) : Prop :=
  (exists rs, is_text d rs /\ ws = words cls (removelast rs)) \/
  ((forall rs, ~ is_text d rs) /\ ws = []).

(** Word characters are the letters and the digits; [u] says which these are above ASCII. *)
Definition word_char (u : unicode) (r : N) : bool :=
  if r <? 128
  then ((48 <=? r) && (r <=? 57)) || ((65 <=? r) && (r <=? 90)) || ((97 <=? r) && (r <=? 122))
  else high_letter u r || high_digit u r.
(** Lower case. *)
Definition lower_case (u : unicode) (r : N) : N :=
  if r <? 128 then (if (65 <=? r) && (r <=? 90) then r + 32 else r) else high_lower u r.
(** Two words with the same letters, but for the case. *)
Definition same_letters (u : unicode) (w1 w2 : bytes) : Prop :=
  exists rs1 rs2, is_text w1 rs1 /\ is_text w2 rs2 /\ map (lower_case u) rs1 = map (lower_case u) rs2.
(** A word in lower case. A code that is not a scalar value is written as U+FFFD. *)
Definition written (r : N) : N := if (r <? 55296) || ((57344 <=? r) && (r <? 1114112)) then r else 65533.
Definition lowered (u : unicode) (w w' : bytes) : Prop :=
  exists rs, is_text w rs /\ w' = utf8s (map (fun r => written (lower_case u r)) rs).

(** Where the words are: the byte ranges [start, end) of the word runs. *)
Fixpoint spans (pos : nat) (R : list (bool * list N)) : list (nat * nat) :=
  match R with
  | [] => []
  | (b, run) :: R =>
      let e := (pos + length (utf8s run))%nat in
      if b then (pos, e) :: spans e R else spans e R
  end.
Definition word_spans (cls : N -> bool) (rs : list N) : list (nat * nat) := spans 0 (runs cls rs).
(** ... and of a document's data, as in [doc_words]. *)
Definition doc_spans (cls : N -> bool) (d : bytes) (sp : list (nat * nat)) : Prop :=
  (exists rs, is_text d rs /\ sp = word_spans cls (removelast rs)) \/
  ((forall rs, ~ is_text d rs) /\ sp = []).
