(** The files under a directory. *)
From Verif Require Import Model.Base Model.Index Model.Walk Spec.Paths.
Local Open Scope N_scope.

(** [t] has the leaf [o] at the names [cs] below it. *)
Inductive file_at : tree -> list bytes -> leaf -> Prop :=
| At_leaf o : file_at (Leaf o) [] o
| At_dir es n t cs o : In (n, t) es -> file_at t cs o -> file_at (Dir (Some es)) (n :: cs) o.
(** [t] has a directory whose entries cannot be read at the names [cs]. *)
Inductive closed_at : tree -> list bytes -> Prop :=
| Closed_here : closed_at (Dir None) []
| Closed_below es n t cs : In (n, t) es -> closed_at t cs -> closed_at (Dir (Some es)) (n :: cs).

(** A name that starts with a dot is hidden ("." and ".." are no entries of directories). *)
Definition dot_name (n : bytes) : Prop := exists c r, n = 46 :: c :: r.
Definition visible (cs : list bytes) : Prop := Forall (fun n => ~ dot_name n) cs.

(** What directory entries are called: not empty, no slash, not "." or "..", and all names
    in one directory different. *)
Definition good_name (n : bytes) : Prop := n <> [] /\ ~ In 47 n /\ n <> [46] /\ n <> [46; 46].
Inductive good_tree : tree -> Prop :=
| Good_leaf o : good_tree (Leaf o)
| Good_closed : good_tree (Dir None)
| Good_dir es : NoDup (map fst es) -> Forall (fun e => good_name (fst e) /\ good_tree (snd e)) es ->
    good_tree (Dir (Some es)).

(** The last name of a path (before any slashes at its end) starts with a dot and is not
    just "."; ".." is such a name. *)
Definition dotted (path : bytes) : Prop :=
  exists a n k, path = a ++ n ++ repeat 47 k /\ dot_name n /\ ~ In 47 n /\ (a = [] \/ exists b, a = b ++ [47]).

(** [d] is the document for the whole file with content [dat] at the names [cs] below the
    directory [path]. *)
Definition doc_for (cwd path : bytes) (cs : list bytes) (dat : bytes) (d : doc) : Prop :=
  spec_abs cwd (d_path d) = spec_abs cwd path ++ cs /\ d_dat d = dat /\ d_start d = 0 /\ d_end d = nlen dat mod 2 ^ 32.

(** No visible file of [t] is one that cannot be opened; no visible directory one whose
    entries cannot be read; all visible files can be read. *)
Definition openable (t : tree) : Prop := forall cs, visible cs -> ~ file_at t cs CannotOpen.
Definition listable (t : tree) : Prop := forall cs, visible cs -> ~ closed_at t cs.
Definition all_read (t : tree) : Prop := forall cs o, visible cs -> file_at t cs o -> exists dat, o = Reads dat.
