(** token/t.go *)
From Verif Require Import Model.Base Model.Utf8.
Local Open Scope N_scope.

(** token/t.go:28-32 (Eod is never produced) *)
Inductive tag := Word | Other.
(** token/t.go:48-52 *)
Record token := MkTok { t_tag : tag; t_lit : bytes; t_pos : N }.

Section Tokenize.
  Variable u : unicode.

  (** token/t.go:66-88: the loop. State: tokens so far, inWord, j, and i (the variable
      assigned by range, which after the loop holds the index of the last rune). *)
  Fixpoint tok_loop (d : bytes) (offset : N) (rs : list (nat * N))
      (dst : list token) (inword : bool) (j i : nat) : list token * bool * nat * nat :=
    match rs with
    | [] => (dst, inword, j, i)
    | (i, r) :: rest =>
        if is_letter u r || is_digit u r then
          if negb inword && (j <? i)%nat
          then tok_loop d offset rest (dst ++ [MkTok Other (sub j i d) (add32 offset (u32 (N.of_nat j)))]) true i i
          else tok_loop d offset rest dst true j i
        else
          if inword && (j <? i)%nat
          then tok_loop d offset rest (dst ++ [MkTok Word (sub j i d) (add32 offset (u32 (N.of_nat j)))]) false i i
          else tok_loop d offset rest dst false j i
    end.

  (** token/t.go:59-105 with dst empty (every caller passes nil or tokb[:0]) *)
  Definition tokenize (d : bytes) (offset : N) : list token :=
    if negb (utf8_valid d) then []
    else
      let '(dst, inword, j, i) := tok_loop d offset (range_string d) [] false 0 0 in
      if (j <? i)%nat
      then dst ++ [MkTok (if inword then Word else Other) (sub j i d) (add32 offset (u32 (N.of_nat j)))]
      else dst.
End Tokenize.

Definition is_word (t : token) : bool := match t_tag t with Word => true | Other => false end.
