(** The set of paths: fnames.go *)
From Verif Require Import Model.Base Model.Varint Model.Path.
Local Open Scope N_scope.

(** Go map[string]uint32; a missing key reads as 0. *)
Definition smap := list (bytes * N).
Fixpoint beq_bytes (a b : bytes) : bool :=
  match a, b with
  | [], [] => true
  | x :: a', y :: b' => (x =? y) && beq_bytes a' b'
  | _, _ => false
  end.
Fixpoint sget (k : bytes) (m : smap) : N :=
  match m with [] => 0 | (k', v) :: r => if beq_bytes k' k then v else sget k r end.
Definition sset (k : bytes) (v : N) (m : smap) : smap := (k, v) :: m.

(** fnames.go:28-32; a nil children map reads like an empty one. *)
Record fname := MkFname { n_parent : N; n_name : bytes; n_children : smap }.
(** fnames.go:35-37 *)
Definition fnames := list fname.
(** fnames.go:39-43: make([]fname, 1, 128) *)
Definition new_fnames : fnames := [MkFname 0 [] []].

(** fnames.go:84-104: the loop of addPath *)
Fixpoint add_parts (d : fnames) (parent : N) (parts : list bytes) : result (fnames * N) :=
  match parts with
  | [] => Ok (d, parent)
  | p :: r =>
      match nth_error d (N.to_nat parent) with
      | None => Panic
      | Some nd =>
          let child := sget p (n_children nd) in
          if child =? 0 then
            let child := u32 (nlen d) in
            let nd' := MkFname (n_parent nd) (n_name nd) (sset p child (n_children nd)) in
            add_parts (upd (N.to_nat parent) nd' d ++ [MkFname parent p []]) child r
          else add_parts d child r
      end
  end.

(** fnames.go:71-83: parts[0] == "" for an absolute path *)
Definition path_parts (abs : bytes) : list bytes :=
  match split_sep abs with
  | [] :: r => r
  | parts => parts
  end.

(** fnames.go:71-105 *)
Definition add_path (cwd : bytes) (d : fnames) (path : bytes) : result (fnames * N) :=
  add_parts d 0 (path_parts (path_abs cwd path)).

(** fnames.go:55-60: collect the names up to the root. [fuel] bounds the depth. *)
Fixpoint abs_walk (fuel : nat) (d : fnames) (v : N) : result (list bytes) :=
  match fuel with
  | O => Loop
  | S k =>
      match nth_error d (N.to_nat v) with
      | None => Panic
      | Some nd =>
          if v =? 0 then Ok []
          else do! l <- abs_walk k d (n_parent nd); Ok (n_name nd :: l)
      end
  end.
(** fnames.go:61-66: swap parts[i] and parts[N-i] for i < H *)
Fixpoint swap_loop (todo i N_ : nat) (l : list bytes) : list bytes :=
  match todo with
  | O => l
  | S k => let x := nth i l [] in let y := nth (N_ - i) l [] in
           swap_loop k (S i) N_ (upd (N_ - i) x (upd i y l))
  end.
Definition reverse_parts (l : list bytes) : list bytes :=
  swap_loop (length l / 2) 0 (length l - 1) l.
(** fnames.go:54-69 *)
Definition fn_abs (d : fnames) (v : N) : result bytes :=
  do! parts <- abs_walk (S (length d)) d v;
  Ok (sep :: join_sep (reverse_parts parts)).

(** fnames.go:158-186, the separate Write calls in order *)
Definition fname_writes (f : fname) : list bytes :=
  [put_uvarint (u32 (nlen (n_name f))); n_name f; put_uvarint (n_parent f)].
Definition fn_writes (d : fnames) : list bytes :=
  put_uvarint (u32 (nlen d)) :: concat (map fname_writes d).
Definition fn_write (d : fnames) : bytes := concat (fn_writes d).

(** fnames.go:107-116 *)
Definition read_uvarint32 (r : bytes) : result (N * bytes) :=
  do! (v, r) <- read_uvarint r;
  if 4294967296 <=? v then Err EOther else Ok (v, r).
(** io.ReadFull(r, buf[:n]) on the buffered reader; both ways of failing (io.EOF and
    io.ErrUnexpectedEOF) are errors to the caller. *)
Definition read_n (n : N) (r : bytes) : result (bytes * bytes) :=
  if n <=? nlen r then Ok (firstn (N.to_nat n) r, skipn (N.to_nat n) r) else Err EOF.

(** fnames.go:130-154: [i] runs over the entries still to read. *)
Fixpoint read_fnames_loop (todo i : nat) (d : fnames) (r : bytes) : result fnames :=
  match todo with
  | O => Ok d
  | S k =>
      do! (len, r) <- read_uvarint32 r;
      do! (name, r) <- read_n len r;
      do! (parent, r) <- read_uvarint32 r;
      match nth_error d i with
      | None => Panic    (* not reached: i < len(s.d) *)
      | Some nd =>
          let d := upd i (MkFname parent name (n_children nd)) d in
          match nth_error d (N.to_nat parent) with
          | None => Panic
          | Some pn =>
              let pn' := MkFname (n_parent pn) (n_name pn) (sset name (u32 (N.of_nat i)) (n_children pn)) in
              read_fnames_loop k (S i) (upd (N.to_nat parent) pn' d) r
          end
      end
  end.
(** fnames.go:118-156 *)
Definition read_fnames (r : bytes) : result fnames :=
  do! (v, r) <- read_uvarint32 r;
  read_fnames_loop (N.to_nat v) 0 (repeat (MkFname 0 [] []) (N.to_nat v)) r.

(** A history of the path set: additions (each with the working directory of that moment)
    and reloads (end of a session, start of the next). Returns the ids given. *)
Inductive fn_op := FnAdd (cwd path : bytes) | FnReload.
Fixpoint fn_run (d : fnames) (ops : list fn_op) : result (fnames * list N) :=
  match ops with
  | [] => Ok (d, [])
  | FnAdd cwd path :: r =>
      do! (d1, id) <- add_path cwd d path;
      do! (d2, ids) <- fn_run d1 r;
      Ok (d2, id :: ids)
  | FnReload :: r =>
      do! d1 <- read_fnames (fn_write d);
      fn_run d1 r
  end.
