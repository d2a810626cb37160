(** encoding/csv and bufio (Go 1.17) as cmd/dupenron/main.go uses them: a Reader with Comma
    ',', LazyQuotes and FieldsPerRecord 2 (main.go:38-48), a Writer with Comma ','
    (main.go:78-79). The file is read without errors. *)
From Coq Require Import String.
From Verif Require Import Model.Base Model.Utf8 Spec.Str.
Local Open Scope N_scope.
Local Open Scope list_scope.

(** * Reader *)

(** ReadSlice('\n'): through the first newline, or all there is; the rest. *)
Fixpoint cut_line (r : bytes) : bytes * bytes :=
  match r with
  | [] => ([], [])
  | c :: r => if c =? 10 then ([10], r) else let '(l, rest) := cut_line r in (c :: l, rest)
  end.
(** reader.go:readLine on a line that has been cut off: a carriage return before the newline
    or at the end of the file is dropped. *)
Fixpoint norm_line (l : bytes) : bytes :=
  match l with
  | [] => []
  | c :: r =>
      if c =? 13 then match r with
                      | [] => []
                      | [d] => if d =? 10 then [10] else c :: norm_line r
                      | _ => c :: norm_line r
                      end
      else c :: norm_line r
  end.
(** reader.go:readLine; [None]: io.EOF *)
Definition read_line (r : bytes) : option (bytes * bytes) :=
  match cut_line r with
  | ([], _) => None
  | (l, rest) => Some (norm_line l, rest)
  end.
(** line[:len(line)-lengthNL(line)] *)
Fixpoint drop_nl (l : bytes) : bytes :=
  match l with
  | [] => []
  | [c] => if c =? 10 then [] else [c]
  | c :: r => c :: drop_nl r
  end.
(** lengthNL(line) == len(line) *)
Definition blank (l : bytes) : bool := match drop_nl l with [] => true | _ => false end.
(** bytes.IndexRune, bytes.IndexByte: what is before the first [x], and what is after it *)
Fixpoint cut_at (x : N) (l : bytes) : option (bytes * bytes) :=
  match l with
  | [] => None
  | c :: r => if c =? x then Some ([], r) else match cut_at x r with None => None | Some (a, b) => Some (c :: a, b) end
  end.

(** A quoted field, after its first quote (reader.go:readRecord). [acc]: what the field has
    so far. Its value; what follows it in the line if a comma comes next; the rest. An io.EOF
    within the field ends it (LazyQuotes). nextRune gives a quote or a comma exactly if the
    next byte is one. *)
Fixpoint quoted (fuel : nat) (line rest acc : bytes) : result (bytes * option bytes * bytes) :=
  match fuel with
  | O => Loop
  | S fuel =>
      match cut_at 34 line with
      | Some (pre, line) =>
          let acc := acc ++ pre in
          match line with
          | [] => Ok (acc, None, rest)
          | c :: r =>
              if c =? 34 then quoted fuel r rest (acc ++ [34])
              else if c =? 44 then Ok (acc, Some r, rest)
              else if blank line then Ok (acc, None, rest)
              else quoted fuel line rest (acc ++ [34])
          end
      | None =>
          match line with
          | [] => Ok (acc, None, rest)
          | _ =>
              match read_line rest with
              | None => quoted fuel [] rest (acc ++ line)
              | Some (next, rest) => quoted fuel next rest (acc ++ line)
              end
          end
      end
  end.
(** The fields of a record that starts with [line]. *)
Fixpoint fields (fuel : nat) (line rest : bytes) : result (list bytes * bytes) :=
  match fuel with
  | O => Loop
  | S fuel =>
      let plain :=
        match cut_at 44 line with
        | Some (f, line) => do! (fs, rest) <- fields fuel line rest; Ok (f :: fs, rest)
        | None => Ok ([drop_nl line], rest)
        end in
      match line with
      | c :: r =>
          if c =? 34 then
            do! (f, next, rest) <- quoted fuel r rest [];
            match next with
            | Some line => do! (fs, rest) <- fields fuel line rest; Ok (f :: fs, rest)
            | None => Ok ([f], rest)
            end
          else plain
      | [] => plain
      end
  end.
(** reader.go:readRecord. Blank lines are skipped; a number of fields other than 2 is an
    error. [fuel]: more than the bytes that are left. *)
Fixpoint read_record (fuel : nat) (r : bytes) : result (bytes * bytes * bytes) :=
  match fuel with
  | O => Loop
  | S k =>
      match read_line r with
      | None => Err EOF
      | Some (line, rest) =>
          if blank line then read_record k rest
          else
            do! (fs, rest) <- fields fuel line rest;
            match fs with
            | [a; b] => Ok (a, b, rest)
            | _ => Err EOther
            end
      end
  end.
(** The records that Read returns before its first error, and how it ends: [Ok] at the end of
    the file. *)
Fixpoint read_all (fuel : nat) (r : bytes) : list (bytes * bytes) * result unit :=
  match fuel with
  | O => ([], Loop)
  | S k =>
      match read_record (S (List.length r)) r with
      | Ok (a, b, rest) => let '(rcds, e) := read_all k rest in ((a, b) :: rcds, e)
      | Err EOF => ([], Ok tt)
      | Err EOther => ([], Err EOther)
      | Panic => ([], Panic)
      | Loop => ([], Loop)
      end
  end.
Definition csv_records (r : bytes) : list (bytes * bytes) * result unit := read_all (S (List.length r)) r.

(** * Writer *)

(** unicode.IsSpace *)
Definition is_space (c : N) : bool :=
  ((9 <=? c) && (c <=? 13)) || (c =? 32) || (c =? 133) || (c =? 160) || (c =? 5760) || ((8192 <=? c) && (c <=? 8202)) ||
  (c =? 8232) || (c =? 8233) || (c =? 8239) || (c =? 8287) || (c =? 12288).
(** writer.go:fieldNeedsQuotes; bytes that are no rune are no space *)
Definition needs_quotes (f : bytes) : bool :=
  match f with
  | [] => false
  | _ =>
      (match f with [92; 46] => true | _ => false end) || existsb (fun c => (c =? 44) || (c =? 34) || (c =? 13) || (c =? 10)) f ||
      match decode_rune f with Some (c, _) => is_space c | None => false end
  end.
(** writer.go:Write *)
Fixpoint escape (f : bytes) : bytes :=
  match f with [] => [] | c :: r => if c =? 34 then 34 :: 34 :: escape r else c :: escape r end.
Definition write_field (f : bytes) : bytes := if needs_quotes f then 34 :: escape f ++ [34] else f.
Definition write_record (a b : bytes) : bytes := write_field a ++ 44 :: write_field b ++ [10].

(** bufio.Writer with its 4096 bytes: what has been written to the file, and what has not. A
    full buffer is flushed when the next byte comes. (WriteString copies more than a byte at
    a time, to the same effect.) *)
Definition bufout := (bytes * bytes)%type.
Fixpoint buf_write (w : bufout) (s : bytes) : bufout :=
  match s with
  | [] => w
  | c :: s => let '(out, buf) := w in buf_write (if nlen buf =? 4096 then (out ++ buf, [c]) else (out, buf ++ [c])) s
  end.
