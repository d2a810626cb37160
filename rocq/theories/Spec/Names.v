(** What the files of an index are called. *)
From Coq Require Import String.
From Verif Require Import Model.Base Model.Names Spec.Str Spec.Printed.
Local Open Scope N_scope.
Local Open Scope list_scope.

Inductive named : ifile -> bytes -> Prop :=
  | named_config : named FConfig (bs "cfg.json")
  | named_dmd : named FDmd (bs "dmd")
  | named_names : named FNames (bs "files.fnm")
  | named_posts i s : numeral decimal s (N.of_nat i) -> named (FPosts i) (bs "b" ++ s ++ bs ".pos")
  | named_table i s : numeral decimal s (N.of_nat i) -> named (FTable i) (bs "b" ++ s ++ bs ".pos.iix").
(** Shards are numbered by ints. *)
Definition int_number (k : ifile) : Prop := match k with FPosts i | FTable i => N.of_nat i < 2 ^ 63 | _ => True end.
