(** C107: the files of an index, and what else the names lead to. *)
From Coq Require Import String.
From Verif Require Import Model.Base Model.Path Model.Config Model.Json Model.Utf8 Model.Blotter Model.Index Model.Query Model.Session Model.Crash Model.Lock Model.Names.
From Verif Require Import Spec.Str Spec.Paths Spec.Locking Spec.Printed Spec.Names Spec.Configs Spec.History Proof.SessionP Proof.SessionP2 Proof.PathP Proof.RootP Proof.QueryW Proof.NamesP.
Local Open Scope N_scope.
Local Open Scope list_scope.

(** Every file of an index is in its directory, under the name that is meant for it
    ([named]); for any root, with whatever slashes, dots and parents in it. *)
Theorem C107_in_directory : forall cwd root k, int_number k -> exists nm, named k nm /\ file_at cwd (path_of root k) = file_at cwd root ++ [nm].
Proof. exact file_place. Qed.
(** So the files of an index are different files, and different from those of an index in
    another directory. *)
Theorem C107_apart : forall cwd root root' k k', int_number k -> int_number k' -> file_at cwd (path_of root k) = file_at cwd (path_of root' k') ->
  k = k' /\ file_at cwd root = file_at cwd root'.
Proof. exact files_apart. Qed.
(** The lock file of an index is none of the files of any index. *)
Theorem C107_lock_apart : forall cwd root root' k, file_at cwd (lock_path root) <> file_at cwd (path_of root' k).
Proof. exact lock_apart. Qed.

(** REFUTED: that files that are not of an index are safe. Whatever file is called like the root with ".lock" behind it
    is emptied by opening the index for reading, be there an index or not, and by creating one. *)
Theorem C107_emptied_refuted : forall sorted fs cwd root dat, fs (file_at cwd (root ++ bs ".lock")) = Some (File dat) ->
  fst (open_index_in sorted fs cwd root) (file_at cwd (root ++ bs ".lock")) = Some (File []).
Proof.
  intros sorted fs cwd root dat H. destruct (open_index_in sorted fs cwd root) as [fs' r] eqn:E.
  destruct (open_index_in_is sorted fs cwd root fs' r E) as [(-> & _ & L)|(A & _)]; [|exact A].
  change (bs ".lock") with dot_lock in H. unfold lock_file, lock_path in L. unfold file_at in H. rewrite H in L. discriminate L.
Qed.
Theorem C107_emptied_by_create_refuted : forall fs cwd root dat, rooted cwd -> fs (file_at cwd (path_abs cwd root ++ bs ".lock")) = Some (File dat) ->
  fst (create_in fs cwd root) (file_at cwd (path_abs cwd root ++ bs ".lock")) = Some (File []).
Proof.
  intros fs cwd root dat R H. destruct (create_in fs cwd root) as [fs' r] eqn:E.
  destruct (create_in_is fs cwd root fs' r R E) as [(-> & _ & L)|(A & _)]; [|exact A].
  change (bs ".lock") with dot_lock in H. unfold lock_file, create_lock, lock_path in L. unfold file_at in H. rewrite H in L. discriminate L.
Qed.
(** REFUTED: that indexes in different directories do not get into each other's way. With a directory "x.lock" there can be no
    index "x"; and where an index "x" has been created there can be no index "x.lock", not even after "x" has been removed. *)
Theorem C107_neighbour_refuted : forall fs cwd root, rooted cwd -> let nb := path_abs cwd root ++ bs ".lock" in
  (fs (file_at cwd nb) = Some Directory -> create_in fs cwd root = (fs, Err EOther)) /\
  forall fs', create_in fs cwd root = (fs', Ok tt) -> forall fs'', fs'' (file_at cwd nb) = fs' (file_at cwd nb) -> snd (create_in fs'' cwd nb) = Err EOther.
Proof.
  intros fs cwd root R nb. unfold nb. change (bs ".lock") with dot_lock. unfold file_at. split.
  - intros D. unfold create_in, create_lock, lock_path, lock_file. rewrite D. reflexivity.
  - intros fs' E fs'' S. destruct (create_in_is fs cwd root fs' _ R E) as [(_ & X & _)|(A & _)]; [discriminate X|].
    apply (create_on_lock fs'' cwd _ fs'' R). rewrite S. unfold create_lock, lock_path in A. rewrite A. discriminate.
Qed.
(** What is true: opening changes nothing but the lock file, and gives what Model/Crash's model, without lock, gives. *)
Theorem C107_nothing_else_partial : forall sorted fs cwd root fs' r, open_index_in sorted fs cwd root = (fs', r) ->
  let lk := file_at cwd (root ++ bs ".lock") in let dir := path_abs cwd root in
  (forall q, q <> lk -> fs' q = fs q) /\
  (r = Err EOther \/ r = open_files sorted (files_at (shards_at_root fs cwd dir) fs cwd) dir).
Proof.
  intros sorted fs cwd root fs' r E. cbv zeta. change (bs ".lock") with dot_lock.
  destruct (open_index_in_is sorted fs cwd root fs' r E) as [(-> & -> & _)|(_ & B & _ & ->)].
  - split; [reflexivity|left; reflexivity].
  - split; [exact B|right; reflexivity].
Qed.
Theorem C107_append_nothing_else_partial : forall fs cwd root fs' x, open_indexer_in fs cwd root = (fs', Ok x) ->
  let dir := path_abs cwd root in let old := files_at (shards_at_root fs cwd dir) fs cwd in
  exists c, Json.read_config (w_cfg (old dir)) = Ok c /\
  (forall q, q <> file_at cwd (cf_root c ++ bs ".lock") -> fs' q = fs q) /\ open_indexer_files old dir = Ok x.
Proof.
  intros fs cwd root fs' x E. cbv zeta. change (bs ".lock") with dot_lock.
  destruct (open_indexer_in_is fs cwd root fs' _ E) as [(_ & X)|(c & Ec & _ & B & _ & Er)]; [contradiction X; eauto|].
  exists c. split; [exact Ec|]. split; [exact B|]. symmetry. exact Er.
Qed.
(** The model of an index as files without paths (Model/Session, Model/Crash) is justified: if the files of a finished
    session are at their paths and the lock file can be made, opening by paths gives what opening without gives. *)
Theorem C107_opens : forall u c k m n, cfg_full c k m n -> cfg_values c -> forall sorted ss dk, history u c ss dk -> docs_fit (all_docs ss) ->
  forall cwd root, rooted cwd -> path_abs cwd root = cf_root c ->
  (forall fs, files_at n fs cwd (cf_root c) = files_of dk ->
    (lock_file fs (file_at cwd (root ++ bs ".lock")) <> None -> snd (open_index_in sorted fs cwd root) = open_index sorted dk) /\
    (lock_file fs (file_at cwd (cf_root c ++ bs ".lock")) <> None -> snd (open_indexer_in fs cwd root) = open_indexer dk)) /\
  exists fs, files_at n fs cwd (cf_root c) = files_of dk /\ lock_file fs (file_at cwd (cf_root c ++ bs ".lock")) <> None.
Proof.
  intros u c k m n F V sorted ss dk Hi Fit cwd root R Er.
  assert (Ln : List.length (k_shards dk) = n).
  { destruct F as [O Hn Hfl]. destruct (words_total u (all_docs ss)) as (wss & Ww). pose proof (history_inv u c k m n O Hn Hfl ss dk Hi Fit wss Ww) as D.
    destruct D as (fs & fn & D). exact (di_shards _ _ _ _ _ _ _ _ _ _ D). }
  split.
  - intros fs Ef. exact (opens_by_paths u c k m n F V sorted ss dk Hi Ln cwd root fs R Er Ef).
  - destruct (files_realized cwd (cf_root c) (files_of dk) R) as (fs & Ef & Lk).
    + cbn [files_of w_shards]. rewrite map_length, Ln. eapply N.lt_trans; [exact (cu_n _ _ _ _ F)|reflexivity].
    + cbn [files_of w_shards] in Ef. rewrite map_length, Ln in Ef. exists fs. split; [exact Ef|].
      assert (Ep : path_abs cwd (cf_root c) = cf_root c).
      { rewrite <- Er. rewrite (path_abs_spec cwd (path_abs cwd root)), abs_again by exact R. symmetry. apply path_abs_spec, R. }
      unfold create_lock in Lk. rewrite Ep in Lk. exact Lk.
Qed.
Print Assumptions C107_opens.
Print Assumptions C107_in_directory.
Print Assumptions C107_apart.
Print Assumptions C107_lock_apart.
Print Assumptions C107_emptied_refuted.
Print Assumptions C107_emptied_by_create_refuted.
Print Assumptions C107_neighbour_refuted.
Print Assumptions C107_nothing_else_partial.
Print Assumptions C107_append_nothing_else_partial.

(** A directory "/src" with a file "Cargo.lock": an attempt to open an index "Cargo", which is not there. *)
Definition src_dir : fsys := put_node [bs "src"; bs "Cargo.lock"] (File (bs "version = 3")) (put_node [bs "src"] Directory (put_node [] Directory (fun _ => None))).
Example C107_example : src_dir (file_at (bs "/src") (bs "Cargo.lock")) = Some (File (bs "version = 3")) /\
  forall sorted, exists fs', open_index_in sorted src_dir (bs "/src") (bs "Cargo") = (fs', Err EOther) /\ fs' (file_at (bs "/src") (bs "Cargo.lock")) = Some (File []).
Proof. split; [reflexivity|]. intros sorted. eexists. split; [reflexivity|]. reflexivity. Qed.
Example C107_names_example : int_number (FTable 12) /\ file_at (bs "/src") (path_of (bs "../d/./idx/") (FTable 12)) = [bs "d"; bs "idx"; bs "b12.pos.iix"] /\
  exists fs', create_in src_dir (bs "/src") (bs "idx") = (fs', Ok tt).
Proof. split; [reflexivity|]. split; [reflexivity|]. eexists. reflexivity. Qed.
Example C107_opens_example : cfg_full wit_config 1 10 2 /\ path_abs (bs "/") (bs "x") = cf_root wit_config /\ forall u, exists dk, history u wit_config [wit_docs] dk.
Proof.
  split; [exact wit_full|]. split; [reflexivity|]. intros u. destruct wit_full as [A B C]. apply (history_exists u wit_config 1 10 2 A B C); [discriminate|reflexivity|exact wit_fit].
Qed.
