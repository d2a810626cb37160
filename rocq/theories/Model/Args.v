(** cmd/dupi/dupi.go, and package flag (Go 1.17) as far as it parses the global flags.
    Arguments are byte strings. *)
From Coq Require Import String.
From Verif Require Import Model.Base Model.Path Spec.Str.
Local Open Scope N_scope.
Local Open Scope list_scope.

Fixpoint beq (a b : bytes) : bool :=
  match a, b with
  | [], [] => true
  | x :: a, y :: b => (x =? y) && beq a b
  | _, _ => false
  end.

(** dupi.go:31-37 *)
Definition verbs : list bytes :=
  map bs ["index"; "extract"; "blot"; "unblot"; "inspect"; "like"]%string.
Definition is_verb (arg : bytes) : bool := existsb (beq arg) verbs.

(** dupi.go:60-71: the range loop leaves in i the index of the first verb or, when there is
    none, the last index (0 for no arguments). *)
Fixpoint split_loop (i0 i : nat) (args : list bytes) : nat :=
  match args with
  | [] => i0
  | arg :: r => if is_verb arg then i else split_loop i (S i) r
  end.
Definition split_args (args : list bytes) : list bytes * list bytes :=
  let i := split_loop 0 0 args in (firstn i args, skipn i args).

(** flag.FlagSet.parseOne and Parse for gFlags (dupi.go:39-41, 107-108): one string flag "r".
    Any error and help call Usage, which exits (dupi.go:86-89). [PDone]: the value of r and
    the arguments not parsed. *)
Inductive parsed := PUsage | PDone (r : bytes) (rest : list bytes).

(** the first '=' at index 1 or later splits a name and a value *)
Fixpoint cut_eq (name : bytes) : bytes * option bytes :=
  match name with
  | [] => ([], None)
  | c :: r => if c =? 61 then ([], Some r) else let '(n, v) := cut_eq r in (c :: n, v)
  end.
Definition cut_value (name : bytes) : bytes * option bytes :=
  match name with [] => ([], None) | c :: r => let '(n, v) := cut_eq r in (c :: n, v) end.

Fixpoint parse_flags (fuel : nat) (args : list bytes) (r : bytes) : parsed :=
  match fuel with
  | O => PUsage
  | S fuel =>
    match args with
    | [] => PDone r []
    | s :: rest =>
      match s with
      | 45 :: c :: s1 =>
        if (c =? 45) && match s1 with [] => true | _ => false end then PDone r rest
        else
          let name := if c =? 45 then s1 else c :: s1 in
          match name with
          | [] => PUsage
          | c0 :: _ =>
            if (c0 =? 45) || (c0 =? 61) then PUsage
            else
              let '(n, v) := cut_value name in
              if beq n (bs "r"%string) then
                match v, rest with
                | Some v, _ => parse_flags fuel rest v
                | None, v :: rest => parse_flags fuel rest v
                | None, [] => PUsage
                end
              else PUsage
          end
      | _ => PDone r args
      end
    end
  end.

(** dupi.go:43-57; [env] is os.Getenv("DUPIROOT"), [home] is os.UserHomeDir (not empty when
    it succeeds).  filepath.Join cleans; only absolute home directories are modelled. *)
Definition index_root (r env : bytes) (home : option bytes) : bytes :=
  match r with
  | _ :: _ => r
  | [] => match env with
          | _ :: _ => env
          | [] => match home with
                  | None => bs "dupi"%string
                  | Some h => clean_rooted (h ++ sep :: bs ".dupi"%string)
                  end
          end
  end.

(** dupi.go:91-112: print the usage and exit, or run a verb with its arguments on a root. *)
Inductive outcome := Usage | RunVerb (verb : bytes) (largs : list bytes) (root : bytes).
Definition main (args : list bytes) (env : bytes) (home : option bytes) : outcome :=
  let '(gargs, largs) := split_args args in
  match largs with
  | [] => Usage
  | v :: largs =>
    if is_verb v then
      match parse_flags (S (List.length gargs)) gargs [] with
      | PUsage => Usage
      | PDone r _ => RunVerb v largs (index_root r env home)
      end
    else Usage
  end.
