(** C08-C10: the path set. *)
From Verif Require Import Model.Base Model.Path Model.Fnames Spec.Paths Proof.FnamesP.
Local Open Scope N_scope.

(** [room ops] bounds the number of nodes and the name lengths a history can need: one per
    character of each working directory and path, plus two. Ids are uint32 in the code. *)

(** C08: whatever is added or reloaded before and after, the path of the id is the cleaned
    absolute path. *)
Theorem C08_paths_read_back before cwd path after :
  ops_ok (before ++ FnAdd cwd path :: after) ->
  room (before ++ FnAdd cwd path :: after) < 4294967295 ->
  exists d1 ids1 d2 id d3 ids3,
    fn_run new_fnames before = Ok (d1, ids1) /\ add_path cwd d1 path = Ok (d2, id) /\
    fn_abs d2 id = Ok (show_abs (spec_abs cwd path)) /\
    fn_run d2 after = Ok (d3, ids3) /\ fn_abs d3 id = Ok (show_abs (spec_abs cwd path)).
Proof. exact (paths_read_back before cwd path after). Qed.
Print Assumptions C08_paths_read_back.

(** C09: ids are equal exactly when the cleaned paths are; adding a path (in any spelling)
    that is there already returns its id and leaves the set as it is; adding any path keeps
    the path of every existing id. *)
Theorem C09_ids_identify_paths ops : ops_ok ops -> room ops < 4294967295 ->
  exists d ids, fn_run new_fnames ops = Ok (d, ids) /\ length ids = length (added ops) /\
    (forall i j idi idj ci pi cj pj,
       nth_error ids i = Some idi -> nth_error (added ops) i = Some (ci, pi) ->
       nth_error ids j = Some idj -> nth_error (added ops) j = Some (cj, pj) ->
       (idi = idj <-> spec_abs ci pi = spec_abs cj pj)) /\
    (forall i idi ci pi, nth_error ids i = Some idi -> nth_error (added ops) i = Some (ci, pi) ->
       forall c p, rooted c -> spec_abs c p = spec_abs ci pi -> add_path c d p = Ok (d, idi)) /\
    (forall c p, rooted c -> room ops + room1 (FnAdd c p) < 4294967295 ->
       exists d' id, add_path c d p = Ok (d', id) /\
         (forall v s, fn_abs d v = Ok s -> v < nlen d -> fn_abs d' v = Ok s)).
Proof. exact (ids_identify ops). Qed.
Print Assumptions C09_ids_identify_paths.

(** C10: reading back succeeds, gives the same path for every id, and no later history can
    tell the difference. *)
Theorem C10_reload_is_invisible ops : ops_ok ops -> room ops < 4294967295 ->
  exists d ids d', fn_run new_fnames ops = Ok (d, ids) /\ read_fnames (fn_write d) = Ok d' /\
    (forall v, fn_abs d' v = fn_abs d v) /\
    (forall later, ops_ok later -> room ops + room later < 4294967295 ->
       exists e e' lids, fn_run d later = Ok (e, lids) /\ fn_run d' later = Ok (e', lids) /\
         (forall v, fn_abs e' v = fn_abs e v)).
Proof. exact (reload_invisible ops). Qed.
Print Assumptions C10_reload_is_invisible.

(** A concrete history: in /h, add "a/b", reload, add "/h/./x/../a/b/", "/", "../..", "a". *)
Definition ex_ops : list fn_op :=
  [FnAdd [47; 104] [97; 47; 98]; FnReload;
   FnAdd [47; 104] [47; 104; 47; 46; 47; 120; 47; 46; 46; 47; 97; 47; 98; 47];
   FnAdd [47; 104] [47]; FnAdd [47; 104] [46; 46; 47; 46; 46]; FnAdd [47; 104] [97]].
Example ex_ops_ok : ops_ok ex_ops /\ room ex_ops < 4294967295.
Proof.
  split; [|reflexivity]. intros c p H. cbn in H. exists [104].
  repeat (destruct H as [H|H]; [congruence|]). destruct H.
Qed.
Example ex_run : exists d, fn_run new_fnames ex_ops = Ok (d, [3; 3; 4; 4; 2]) /\
  fn_abs d 3 = Ok [47; 104; 47; 97; 47; 98] /\ fn_abs d 4 = Ok [47] /\ fn_abs d 2 = Ok [47; 104; 47; 97].
Proof. eexists. split; [vm_compute; reflexivity|]. repeat split. Qed.
(** ".." at the root, doubled slashes, a trailing slash and a dot file. *)
Example ex_spec : spec_abs [47; 104] [47; 46; 46; 47; 47; 46; 120; 47] = [[46; 120]].
Proof. reflexivity. Qed.
