(** C49: the index command's walk over directories. *)
From Coq Require Import String.
From Verif Require Import Model.Base Model.Index Model.Walk Spec.Paths Spec.Str Spec.Tree Proof.WalkP.
Local Open Scope N_scope.
Local Open Scope list_scope.

(** C49 is false: a file that cannot be opened ends the walk of its directory argument, what
    comes after it is not added, and no error is reported. *)
Theorem C49_unreadable_refuted : forall fixed, exists t lstat path,
  good_tree t /\ lstat path = Some t /\ ~ dotted path /\ listable t
  /\ file_at t [bs "b"] (Reads (bs "text")) /\ visible [bs "b"]
  /\ do_paths (fun _ => true) fixed lstat [path] (false, []) = (false, []).
Proof.
  intros fixed.
  set (t := Dir (Some [(bs "a", Leaf CannotOpen); (bs "b", Leaf (Reads (bs "text")))])).
  exists t, (fun _ => Some t), (bs "d").
  split; [|split; [reflexivity|split; [|split; [|split; [|split]]]]].
  - constructor.
    + cbn [map fst]. constructor; [intros [H|[]]; discriminate H|]. constructor; [intros []|constructor].
    + repeat constructor; cbn [fst]; try discriminate; cbn; intros [H|H]; try contradiction; discriminate.
  - intros (a & n & k & E & (c & r & ->) & _ & [->|(b & ->)]); [discriminate|].
    destruct b as [|? b]; [discriminate|]. destruct b; discriminate.
  - intros cs _ H. inversion H as [|? ? ? ? Hi Hc]; subst. cbn in Hi. destruct Hi as [Hi|[Hi|[]]]; inversion Hi; subst; inversion Hc.
  - econstructor; [right; left; reflexivity|constructor].
  - constructor; [|constructor]. intros (c & r & E). discriminate.
  - reflexivity.
Qed.
Print Assumptions C49_unreadable_refuted.

(** Nor are errors from Indexer.Add reported. *)
Theorem C49_add_error_refuted : forall fixed, exists t lstat path,
  good_tree t /\ lstat path = Some t /\ ~ dotted path /\ all_read t
  /\ file_at t [] (Reads (bs "text"))
  /\ do_paths (fun _ => false) fixed lstat [path] (false, []) = (false, []).
Proof.
  intros fixed. exists (Leaf (Reads (bs "text"))), (fun _ => Some (Leaf (Reads (bs "text")))), (bs "d").
  split; [constructor|]. split; [reflexivity|]. split; [|split; [|split; [constructor|reflexivity]]].
  - intros (a & n & k & E & (c & r & ->) & _ & [->|(b & ->)]); [discriminate|].
    destruct b as [|? b]; [discriminate|]. destruct b; discriminate.
  - intros cs o _ H. inversion H. eauto.
Qed.
Print Assumptions C49_add_error_refuted.

(** A directory given as ".." is taken for a hidden one, silently. *)
Theorem C49_parent_refuted : forall fixed t, do_paths (fun _ => true) fixed (fun _ => Some t) [bs ".."] (false, []) = (false, []).
Proof. intros fixed [o|[es|]]; reflexivity. Qed.
Print Assumptions C49_parent_refuted.

(** A file under two of the arguments is added twice. *)
Theorem C49_twice_refuted : forall fixed, exists lstat,
  lstat (bs "d") = Some (Leaf (Reads (bs "text")))
  /\ exists d, do_paths (fun _ => true) fixed lstat [bs "d"; bs "d"] (false, []) = (false, [d; d]).
Proof.
  intros fixed. exists (fun _ => Some (Leaf (Reads (bs "text")))). split; [reflexivity|].
  exists (MkDoc (bs "d") 0 4 (bs "text")). reflexivity.
Qed.
Print Assumptions C49_twice_refuted.

(** For one argument, whatever fails: what is added are visible files under it, whole and
    each once. *)
Theorem C49_sound : forall add_ok fixed cwd t path docs err docs',
  good_tree t -> do_path add_ok fixed (Some t) path docs = (err, docs') ->
  exists news, docs' = docs ++ news
    /\ NoDup (map (fun d => spec_abs cwd (d_path d)) news)
    /\ forall d, In d news -> exists cs dat, visible cs /\ file_at t cs (Reads dat) /\ doc_for cwd path cs dat d.
Proof.
  intros add_ok fixed cwd t path docs err docs' G E.
  destruct (do_path_spec add_ok fixed cwd t path docs err docs' G E) as (news & H1 & H2 & H3 & _).
  exists news. auto.
Qed.
Print Assumptions C49_sound.

(** For all arguments: if adding never fails, no argument is called like a hidden file and
    no visible file fails to open, then either an error is reported or every visible file
    under every argument is added (so unreadable directories, files that fail to be read
    and missing arguments are reported). *)
Theorem C49_all_added_partial : forall add_ok fixed cwd lstat paths docs,
  (forall p t, lstat p = Some t -> good_tree t) -> (forall p, add_ok p = true) ->
  (forall p t, In p paths -> lstat p = Some t -> ~ dotted p /\ openable t) ->
  do_paths add_ok fixed lstat paths (false, []) = (false, docs) ->
  forall p, In p paths -> exists t, lstat p = Some t /\ listable t
    /\ forall cs o, visible cs -> file_at t cs o ->
         exists d dat, o = Reads dat /\ In d docs /\ doc_for cwd p cs dat d.
Proof.
  intros add_ok fixed cwd lstat paths docs G Ha Ho E.
  exact (proj2 (proj2 (do_paths_complete add_ok fixed cwd lstat paths (false, []) docs G Ha Ho E))).
Qed.
Print Assumptions C49_all_added_partial.

(** And if everything visible can be read, no error is reported. *)
Theorem C49_no_error : forall add_ok fixed lstat paths,
  (forall p t, lstat p = Some t -> good_tree t) -> (forall p, add_ok p = true) ->
  (forall p, In p paths -> ~ dotted p /\ exists t, lstat p = Some t /\ listable t /\ all_read t) ->
  fst (do_paths add_ok fixed lstat paths (false, [])) = false.
Proof.
  intros add_ok fixed lstat paths G Ha Ho. exact (do_paths_no_error add_ok fixed [] lstat paths (false, []) G Ha eq_refl Ho).
Qed.
Print Assumptions C49_no_error.

(** Any argument that ends in ".." is skipped. *)
Example C49_parent_example :
  do_paths (fun _ => true) false (fun _ => Some (Dir (Some
     [(bs ".git", Dir None); (bs ".x", Leaf CannotOpen);
      (bs "a", Dir (Some [(bs "f", Leaf (Reads (bs "one")))])); (bs "b", Leaf (Reads (bs "two")))]))) [bs "./x/.."] (false, [])
  = (false, []).
Proof. reflexivity. Qed.
(** Hidden files and directories are left out, the rest is added under cleaned paths. *)
Example C49_example :
  do_paths (fun _ => true) false (fun _ => Some (Dir (Some
     [(bs ".git", Dir None); (bs ".x", Leaf CannotOpen);
      (bs "a", Dir (Some [(bs "f", Leaf (Reads (bs "one")))])); (bs "b", Leaf (Reads (bs "two")))]))) [bs "../x//"] (false, [])
  = (false, [MkDoc (bs "../x/a/f") 0 3 (bs "one"); MkDoc (bs "../x/b") 0 3 (bs "two")]).
Proof. reflexivity. Qed.
(** The hypotheses of C49_all_added_partial and C49_no_error can be met. *)
Example C49_hypotheses : good_tree (Dir (Some [(bs "f", Leaf (Reads (bs "one")))]))
  /\ ~ dotted (bs "x") /\ listable (Dir (Some [(bs "f", Leaf (Reads (bs "one")))]))
  /\ all_read (Dir (Some [(bs "f", Leaf (Reads (bs "one")))])).
Proof.
  split; [|split; [|split]].
  - constructor; [constructor; [intros []|constructor]|].
    repeat constructor; cbn [fst]; try discriminate; cbn; intros [H|H]; try contradiction; discriminate.
  - intros (a & n & k & E & (c & r & ->) & _ & [->|(b & ->)]); [discriminate|].
    destruct b as [|? b]; [discriminate|]. destruct b; discriminate.
  - intros cs _ H. inversion H as [|? ? ? ? Hi Hc]; subst. cbn in Hi. destruct Hi as [Hi|[]]; inversion Hi; subst; inversion Hc.
  - intros cs o _ H. inversion H as [|? ? ? ? ? Hi Hc]; subst. cbn in Hi. destruct Hi as [Hi|[]]; inversion Hi; subst; inversion Hc. eauto.
Qed.
