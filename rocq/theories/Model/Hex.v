(** Blots on the command line: the %x of fmt.Printf (cmd/dupi/extract.go:110,113, blot.go:82,84)
    and of fmt.Sscanf (unblot.go:52), and the unblot command on its arguments. *)
From Verif Require Import Model.Base Model.Utf8 Model.Config Model.Index Model.Query Model.Cmd.
Local Open Scope N_scope.

(** fmt's ldigits *)
Definition hex_digit (d : N) : N := if d <? 10 then 48 + d else 87 + d.
(** fmt's fmtInteger with base 16: the digits from the last one on, in front of [acc]; 8 of
    them are enough for a uint32. *)
Fixpoint hex_loop (fuel : nat) (n : N) (acc : bytes) : bytes :=
  match fuel with
  | O => acc
  | S k => if 16 <=? n then hex_loop k (n / 16) (hex_digit (n mod 16) :: acc) else hex_digit n :: acc
  end.
Definition print_hex (n : N) : bytes := hex_loop 8 n [].

(** fmt's isSpace *)
Definition is_space (r : N) : bool :=
  in_range 9 13 r || (r =? 32) || (r =? 133) || (r =? 160) || (r =? 5760) || in_range 8192 8202 r ||
  in_range 8232 8233 r || (r =? 8239) || (r =? 8287) || (r =? 12288).
(** fmt's ss.SkipSpace, called by Sscanf: a new line is an error. *)
Fixpoint skip_blanks (fuel : nat) (s : bytes) : result bytes :=
  match fuel with
  | O => Ok s
  | S k =>
      match decode_rune s with
      | None => Ok s                                     (* the end, or not UTF-8: RuneError *)
      | Some (r, n) =>
          if r =? 10 then Err EOther
          else if is_space r then skip_blanks k (skipn n s)
          else Ok s
      end
  end.
(** A digit accepted for %x, and its value. *)
Definition hex_value (c : N) : option N :=
  if in_range 48 57 c then Some (c - 48)
  else if in_range 97 102 c then Some (c - 87)
  else if in_range 65 70 c then Some (c - 55)
  else None.
(** fmt's scanNumber: the longest run of digits; what is behind it is not looked at. *)
Fixpoint take_hex (s : bytes) : list N :=
  match s with
  | [] => []
  | c :: r => match hex_value c with Some v => v :: take_hex r | None => [] end
  end.
(** strconv.ParseUint(tok, 16, 64) *)
Definition parse_hex (ds : list N) : result N :=
  let v := fold_left (fun v d => 16 * v + d) ds 0 in
  if v <? 2 ^ 64 then Ok v else Err EOther.
(** fmt.Sscanf(arg, "%x", &hex) for a uint32: fmt's doScanf, scanOne and scanUint. *)
Definition scan_hex (arg : bytes) : result N :=
  do! s <- skip_blanks (length arg) arg;
  match take_hex s with
  | [] => Err EOther                                     (* unexpected EOF, or expected integer *)
  | ds => do! v <- parse_hex ds; if v <? 2 ^ 32 then Ok v else Err EOther
  end.

(** unblot.go:50-82: what is printed for the arguments, until one fails *)
Fixpoint unblot_args (u : unicode) (fs : files) (grow : nat -> nat) (ix : index) (fuel : nat) (all : bool) (args : list bytes)
  : list groups * result unit :=
  match args with
  | [] => ([], Ok tt)
  | arg :: r =>
      match (do! blot <- scan_hex arg; unblot u fs grow ix fuel all blot) with
      | Ok g => let '(gs, e) := unblot_args u fs grow ix fuel all r in (g :: gs, e)
      | Err e => ([], Err e)
      | Panic => ([], Panic)
      | Loop => ([], Loop)
      end
  end.
