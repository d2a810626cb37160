(** path/filepath on Unix as used by fnames.go and config.go (Go 1.17). Paths are byte
    strings; 47 is '/', 46 is '.'. *)
From Verif Require Import Model.Base.
Local Open Scope N_scope.

Definition sep : N := 47.
Definition dot : N := 46.

(** strings.Split(s, "/") *)
Fixpoint split_sep (s : bytes) : list bytes :=
  match s with
  | [] => [[]]
  | c :: r =>
      if c =? sep then [] :: split_sep r
      else match split_sep r with
           | h :: t => (c :: h) :: t
           | [] => [[c]]      (* not reached *)
           end
  end.

(** strings.Join(parts, "/") *)
Fixpoint join_sep (parts : list bytes) : bytes :=
  match parts with
  | [] => []
  | p :: r => match r with [] => p | _ => p ++ sep :: join_sep r end
  end.

(** Is this the end of a path element (end of string or separator)? *)
Definition at_end (s : bytes) : bool :=
  match s with [] => true | c :: _ => c =? sep end.

(** filepath.Clean, case "..": out.w--; for out.w > dotdot && !IsPathSeparator(out.index(out.w))
    { out.w-- } with dotdot = 1; [ro] is out.buf[:out.w] reversed, so that the character
    just removed is at index out.w. *)
Fixpoint clean_pop (ro : bytes) : bytes :=
  match ro with
  | [] => []
  | c :: ro' => if (1 <? length ro')%nat && negb (c =? sep) then clean_pop ro' else ro'
  end.

(** filepath.Clean, default case: copy one element. Returns the rest and the new output. *)
Fixpoint clean_copy (s ro : bytes) : bytes * bytes :=
  match s with
  | [] => ([], ro)
  | c :: r => if c =? sep then (s, ro) else clean_copy r (c :: ro)
  end.

(** filepath.Clean's loop on a rooted path; [fuel] bounds the iterations, each consumes at
    least one byte. *)
Fixpoint clean_loop (fuel : nat) (s ro : bytes) : bytes :=
  match fuel with
  | O => ro
  | S k =>
      match s with
      | [] => ro
      | c :: r =>
          if c =? sep then clean_loop k r ro
          else if (c =? dot) && at_end r then clean_loop k r ro
          else if (c =? dot) && (match r with c2 :: r2 => (c2 =? dot) && at_end r2 | [] => false end)
          then clean_loop k (skipn 1 r) (if (1 <? length ro)%nat then clean_pop ro else ro)
          else
            let ro := if (length ro =? 1)%nat then ro else sep :: ro in
            let '(s', ro') := clean_copy s ro in
            clean_loop k s' ro'
      end
  end.
(** filepath.Clean of a path that starts with '/' *)
Definition clean_rooted (path : bytes) : bytes :=
  rev (clean_loop (length path) (skipn 1 path) [sep]).

(** filepath.Abs; [cwd] is the result of os.Getwd (an absolute path; its error is not
    modelled). *)
Definition is_abs (path : bytes) : bool :=
  match path with c :: _ => c =? sep | [] => false end.
Definition path_abs (cwd path : bytes) : bytes :=
  if is_abs path then clean_rooted path else clean_rooted (cwd ++ sep :: path).
