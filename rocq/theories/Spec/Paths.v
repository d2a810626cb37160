(** What the cleaned absolute form of a path is, by components. *)
From Verif Require Import Model.Base.
Local Open Scope N_scope.

(** The maximal slash-free pieces of a path, in order ('/' is 47). *)
Fixpoint pieces (s : bytes) : list bytes :=
  match s with
  | [] => [[]]
  | c :: r => if c =? 47 then [] :: pieces r
              else match pieces r with h :: t => (c :: h) :: t | [] => [[c]] end
  end.

(** One component on a stack of directory names (innermost first): empty and "." are
    nothing, ".." goes up (and stays at the root), anything else goes down. *)
Definition walk1 (st : list bytes) (c : bytes) : list bytes :=
  match c with
  | [] => st
  | [46] => st
  | [46; 46] => tl st
  | _ => c :: st
  end.
Definition resolve (cs : list bytes) : list bytes := rev (fold_left walk1 cs []).

(** The directory names of the cleaned absolute form. *)
Definition spec_abs (cwd path : bytes) : list bytes :=
  match path with
  | 47 :: _ => resolve (pieces path)
  | _ => resolve (pieces cwd ++ pieces path)
  end.

(** As a string. *)
Fixpoint slashed (cs : list bytes) : bytes :=
  match cs with [] => [] | c :: r => 47 :: c ++ slashed r end.
Definition show_abs (cs : list bytes) : bytes := match cs with [] => [47] | _ => slashed cs end.

(** An absolute directory, as os.Getwd returns. *)
Definition rooted (p : bytes) : Prop := exists r, p = 47 :: r.
