(** unicode/utf8, unicode and bytes.ToLower as used by token/t.go and blotter/circ.go
    (Go 1.17). *)
From Verif Require Import Model.Base.
Local Open Scope N_scope.

(** utf8.RuneError *)
Definition rune_error : N := 65533.

(** utf8's tables [first] and [acceptRanges]: for a leading byte that is not ASCII, the
    length of the sequence and the range allowed for its second byte; [None]: not a
    leading byte. *)
Definition lead (b : N) : option (nat * N * N) :=
  if b <? 194 then None                                          (* 80..C1 *)
  else if b <=? 223 then Some (2%nat, 128, 191)                  (* C2..DF *)
  else if b =? 224 then Some (3%nat, 160, 191)                   (* E0 *)
  else if b =? 237 then Some (3%nat, 128, 159)                   (* ED *)
  else if b <=? 239 then Some (3%nat, 128, 191)                  (* E1..EC, EE, EF *)
  else if b =? 240 then Some (4%nat, 144, 191)                   (* F0 *)
  else if b <=? 243 then Some (4%nat, 128, 191)                  (* F1..F3 *)
  else if b =? 244 then Some (4%nat, 128, 143)                   (* F4 *)
  else None.

Definition in_range (lo hi b : N) : bool := (lo <=? b) && (b <=? hi).

(** utf8.DecodeRune: the rune and its width; [None] stands for (RuneError, 1) (or
    (RuneError, 0) on the empty slice). *)
Definition decode_rune (s : bytes) : option (N * nat) :=
  match s with
  | [] => None
  | b0 :: r0 =>
      if b0 <? 128 then Some (b0, 1%nat)
      else match lead b0 with
           | None => None
           | Some (sz, lo, hi) =>
               match r0 with
               | [] => None
               | b1 :: r1 =>
                   if negb (in_range lo hi b1) then None
                   else if (sz <=? 2)%nat
                   then Some (N.lor (N.shiftl (N.land b0 31) 6) (N.land b1 63), 2%nat)
                   else match r1 with
                        | [] => None
                        | b2 :: r2 =>
                            if negb (in_range 128 191 b2) then None
                            else if (sz <=? 3)%nat
                            then Some (N.lor (N.lor (N.shiftl (N.land b0 15) 12) (N.shiftl (N.land b1 63) 6))
                                             (N.land b2 63), 3%nat)
                            else match r2 with
                                 | [] => None
                                 | b3 :: _ =>
                                     if negb (in_range 128 191 b3) then None
                                     else Some (N.lor (N.lor (N.lor (N.shiftl (N.land b0 7) 18)
                                                 (N.shiftl (N.land b1 63) 12)) (N.shiftl (N.land b2 63) 6))
                                                 (N.land b3 63), 4%nat)
                                 end
                        end
               end
           end
  end.

(** utf8.Valid; its 8-bytes-at-a-time ASCII fast path is not modelled separately.
    [fuel] bounds the number of runes. *)
Fixpoint valid_loop (fuel : nat) (s : bytes) : bool :=
  match s with
  | [] => true
  | _ => match fuel with
         | O => false
         | S k => match decode_rune s with
                  | None => false
                  | Some (_, n) => valid_loop k (skipn n s)
                  end
         end
  end.
Definition utf8_valid (s : bytes) : bool := valid_loop (length s) s.

(** for i, r := range string(s): the pairs (i, r) in order. A byte that does not start a
    valid sequence gives RuneError and is skipped alone. *)
Fixpoint range_loop (fuel : nat) (i : nat) (s : bytes) : list (nat * N) :=
  match s with
  | [] => []
  | _ => match fuel with
         | O => []          (* not reached *)
         | S k => match decode_rune s with
                  | None => (i, rune_error) :: range_loop k (i + 1) (skipn 1 s)
                  | Some (r, n) => (i, r) :: range_loop k (i + n) (skipn n s)
                  end
         end
  end.
Definition range_string (s : bytes) : list (nat * N) := range_loop (length s) 0 s.

(** utf8.EncodeRune / AppendRune *)
Definition encode_rune (r : N) : bytes :=
  if r <=? 127 then [u8 r]
  else if r <=? 2047 then [N.lor 192 (u8 (N.shiftr r 6)); N.lor 128 (N.land (u8 r) 63)]
  else
    let r := if (1114111 <? r) || ((55296 <=? r) && (r <=? 57343)) then rune_error else r in
    if r <=? 65535
    then [N.lor 224 (u8 (N.shiftr r 12)); N.lor 128 (N.land (u8 (N.shiftr r 6)) 63);
          N.lor 128 (N.land (u8 r) 63)]
    else [N.lor 240 (u8 (N.shiftr r 18)); N.lor 128 (N.land (u8 (N.shiftr r 12)) 63);
          N.lor 128 (N.land (u8 (N.shiftr r 6)) 63); N.lor 128 (N.land (u8 r) 63)].

(** Unicode's tables above ASCII are a parameter of the model. *)
Record unicode := MkUnicode {
  high_letter : N -> bool;
  high_digit : N -> bool;
  high_lower : N -> N }.

(** unicode.IsLetter *)
Definition is_letter (u : unicode) (r : N) : bool :=
  if r <? 128 then in_range 65 90 r || in_range 97 122 r else high_letter u r.
(** unicode.IsDigit *)
Definition is_digit (u : unicode) (r : N) : bool :=
  if r <? 128 then in_range 48 57 r else high_digit u r.
(** unicode.ToLower *)
Definition to_lower (u : unicode) (r : N) : N :=
  if r <? 128 then (if in_range 65 90 r then r + 32 else r) else high_lower u r.

(** bytes.Map(unicode.ToLower, s) *)
Definition map_lower (u : unicode) (s : bytes) : bytes :=
  concat (map (fun ir => encode_rune (to_lower u (snd ir))) (range_string s)).
(** bytes.ToLower: an ASCII-only slice is treated byte by byte *)
Definition bytes_to_lower (u : unicode) (s : bytes) : bytes :=
  if forallb (fun c => c <? 128) s
  then map (fun c => if in_range 65 90 c then c + 32 else c) s
  else map_lower u s.
