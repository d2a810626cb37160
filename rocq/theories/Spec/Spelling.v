(** The text a token sequence stands for, as trigrams see it. *)
From Verif Require Import Model.Base Model.Trigram.
Local Open Scope N_scope.

(** Digits and lower case letters are themselves, upper case letters lose their case,
    everything else is an underscore. *)
Definition folded (c : N) : N :=
  if ((48 <=? c) && (c <=? 57)) || ((97 <=? c) && (c <=? 122)) then c
  else if (65 <=? c) && (c <=? 90) then c + 32
  else 95.
(** A run of other characters is squeezed into one underscore. *)
Definition spelled (tok : ttoken) : list N :=
  match tt_tag tok with TWord => map folded (tt_lit tok) | TOther => [95] | TEod => [] end.
Definition spelling (toks : list ttoken) : list N := concat (map spelled toks).

Definition last3 (l : list N) : list N := skipn (length l - 3) l.
(** After each character the last three; before the text there are underscores. *)
Definition windows3 (text : list N) : list (list N) :=
  map (fun n => last3 ([95; 95; 95] ++ firstn n text)) (seq 1 (length text)).
