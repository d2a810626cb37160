(** attic/trigram/t.go *)
From Verif Require Import Model.Base.
Local Open Scope N_scope.

(** token/t.go:28-32,48-52 with all three tags; t.go:18 uint16 *)
Inductive ttag := TWord | TOther | TEod.
Record ttoken := MkTTok { tt_tag : ttag; tt_lit : bytes }.
Definition tri := N.

(** t.go:29-31 *)
Definition num_letters : N := 37.
Definition num_trigrams : N := num_letters * num_letters * num_letters.
Definition c_other : N := 36.

(** t.go:34-42 *)
Definition unletter (c : N) : N :=
  if c <=? 9 then 48 + c else if c <=? 35 then u8 (97 + c - 10) else 95.
(** t.go:44-55; the argument is a byte converted to rune *)
Definition letter (r : N) : N :=
  if (48 <=? r) && (r <=? 57) then r - 48
  else if (97 <=? r) && (r <=? 122) then r - 97 + 10
  else if (65 <=? r) && (r <=? 90) then r - 65 + 10
  else c_other.

(** t.go:57-66 *)
Definition tri_string (t : tri) : list N :=
  let an := u16 num_letters in
  let b2 := unletter (u8 (t mod an)) in
  let t := t / an in
  let b1 := unletter (u8 (t mod an)) in
  let t := t / an in
  let b0 := unletter (u8 (t mod an)) in
  [b0; b1; b2].
(** t.go:68-74 *)
Definition shift (t : tri) (c : N) : tri :=
  let an := u16 num_letters in
  let t := t mod u16 (an * an) in
  let t := u16 (t * an) in
  u16 (t + u16 c).
(** t.go:76-79 *)
Definition tri_zero : tri := shift (shift (shift 0 c_other) c_other) c_other.

(** t.go:89-92 and 123-126: the loop over a word; the trigrams in order, and the last. *)
Fixpoint shifts (t : tri) (lit : bytes) : tri * list tri :=
  match lit with
  | [] => (t, [])
  | r :: rest => let t := shift t (letter r) in let '(t', l) := shifts t rest in (t', t :: l)
  end.

(** t.go:81-98: the result and the arguments of the calls of fn. *)
Definition visit_token (start : tri) (tok : ttoken) : tri * list tri :=
  match tt_tag tok with
  | TOther => let t := shift start c_other in (t, [t])
  | TWord => shifts start (tt_lit tok)
  | TEod => (0, [])
  end.
(** t.go:100-105 *)
Fixpoint visit_from (t : tri) (toks : list ttoken) : list tri :=
  match toks with
  | [] => []
  | tok :: r => let '(t, l) := visit_token t tok in l ++ visit_from t r
  end.
Definition visit_tokens (toks : list ttoken) : list tri := visit_from tri_zero toks.

(** t.go:115-131 *)
Definition from_token (dst : list tri) (start : tri) (tok : ttoken) : result (tri * list tri) :=
  match tt_tag tok with
  | TOther => let t := shift start c_other in Ok (t, dst ++ [t])
  | TWord => let '(t, l) := shifts start (tt_lit tok) in Ok (t, dst ++ l)
  | TEod => Panic
  end.
(** t.go:107-113: dst[2:] panics when there are fewer than two. *)
Fixpoint from_loop (dst : list tri) (t : tri) (toks : list ttoken) : result (list tri) :=
  match toks with
  | [] => Ok dst
  | tok :: r => do! (t, dst) <- from_token dst t tok; from_loop dst t r
  end.
Definition from_tokens (dst : list tri) (toks : list ttoken) : result (list tri) :=
  do! dst <- from_loop dst tri_zero toks;
  if (length dst <? 2)%nat then Panic else Ok (skipn 2 dst).
