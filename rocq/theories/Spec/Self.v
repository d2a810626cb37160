(** What a walk finds in a file system. *)
From Verif Require Import Model.Base Model.Index Model.Walk Model.Names Spec.Paths Spec.Tree.
Local Open Scope N_scope.

(** What is in something is in a directory. *)
Definition parents (fs : fsys) : Prop := forall p nm, fs (p ++ [nm]) <> None -> fs p = Some Directory.
(** The tree is what is found at a place, a while later: nothing has gone, files may have other bytes, and there may
    be more. *)
Inductive found (fs : fsys) : list bytes -> tree -> Prop :=
  | found_file p dat dat' : fs p = Some (File dat') -> found fs p (Leaf (Reads dat))
  | found_dir p es : fs p = Some Directory -> (forall nm, fs (p ++ [nm]) <> None -> exists t, In (nm, t) es /\ found fs (p ++ [nm]) t) ->
      found fs p (Dir (Some es)).
(** The arguments of index are not called like hidden files, and what is under them is found as it is. *)
Definition finds (fs : fsys) (cwd : bytes) (paths : list bytes) (lstat : bytes -> option tree) : Prop :=
  (forall p t, lstat p = Some t -> good_tree t) /\
  forall p t, In p paths -> lstat p = Some t -> ~ dotted p /\ openable t /\ found fs (spec_abs cwd p) t.
(** [docs] has a document for the file at [place]. *)
Definition has_document (cwd : bytes) (docs : list doc) (place : list bytes) : Prop := exists d, In d docs /\ spec_abs cwd (d_path d) = place.
