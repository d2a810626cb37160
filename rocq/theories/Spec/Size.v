(** How much there is to store. *)
From Verif Require Import Model.Base Model.Index Spec.History.
Local Open Scope N_scope.

(** The length of several files or texts together. *)
Definition total_size (fs : list bytes) : N := fold_right (fun f t => nlen f + t) 0 fs.
(** The text of the documents. *)
Definition text_size (docs : list (bytes * doc)) : N := total_size (map (fun p => d_dat (snd p)) docs).
(** The names of all directories and files on the way to the documents, each once. *)
Definition names_size (docs : list (bytes * doc)) : N := total_size (map (fun q => last q []) (tree_nodes docs)).
