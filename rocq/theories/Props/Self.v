(** C108: an index among the files that are indexed. *)
From Coq Require Import String.
From Verif Require Import Model.Base Model.Path Model.Walk Model.Config Model.Blotter Model.Index Model.Query Model.Session Model.Crash Model.Lock Model.Args Model.Names Model.Self.
From Verif Require Import Spec.Str Spec.Paths Spec.Tree Spec.Configs Spec.History Spec.Names Spec.Self Proof.PathP Proof.CleanP Proof.DmdP Proof.SessionP Proof.SessionP2 Proof.RootP Proof.WalkP Proof.QueryW Proof.NamesP Proof.SelfP.
From Coq Require Import Lia.
Local Open Scope N_scope.
Local Open Scope list_scope.

(** REFUTED: that index adds the files it is given and not its own. If the new index is in one of the directories given (no name on
    the way being hidden), it gets, as documents, a posting file and a table for each of its shards, and its lock file. *)
Theorem C108_creating_refuted : forall fixed n fs cwd root fs' lstat paths docs p dir name, rooted cwd -> parents fs -> N.of_nat n < 2 ^ 63 ->
  start_new n fs cwd root = (fs', Ok tt) -> finds fs' cwd paths lstat -> do_paths (fun _ => true) fixed lstat paths (false, []) = (false, docs) ->
  In p paths -> spec_abs cwd root = spec_abs cwd p ++ dir ++ [name] -> visible (dir ++ [name]) ->
  (forall i, (i < n)%nat -> has_document cwd docs (spec_abs cwd (path_of root (FPosts i))) /\ has_document cwd docs (spec_abs cwd (path_of root (FTable i)))) /\
  has_document cwd docs (spec_abs cwd p ++ dir ++ [name ++ bs ".lock"]).
Proof.
  intros fixed n fs cwd root fs' lstat paths docs p dir name R Pa L St Fi W Ip Er V. destruct (start_new_in n fs cwd root fs' R Pa L St) as (Pa' & (dl & Lk) & Sh).
  assert (One : forall k dat, int_number k -> fs' (spec_abs cwd (path_of root k)) = Some (File dat) -> has_document cwd docs (spec_abs cwd (path_of root k))).
  { intros k dat Hk Ed. destruct (file_place cwd root k Hk) as (nm & Nm & Ep). rewrite Ep, Er, <- app_assoc in *. eapply walked_at; try eassumption.
    apply Forall_app. split; [exact V|]. repeat constructor. exact (named_visible k nm Nm). }
  split.
  - intros i Hi. destruct (Sh i Hi) as ((d1 & E1) & d2 & E2). change (2 ^ 63) with 9223372036854775808 in *.
    split; [apply (One _ d1); [|exact E1]|apply (One _ d2); [|exact E2]]; cbn [int_number]; change (2 ^ 63) with 9223372036854775808; lia.
  - rewrite app_assoc in Er. rewrite (lock_beside cwd root _ _ R Er), <- app_assoc in Lk. change (bs ".lock") with dot_lock. eapply walked_at; try eassumption.
    apply Forall_app in V. destruct V as [Vd Vn]. apply Forall_app. split; [exact Vd|]. repeat constructor. inversion Vn as [|? ? V1 _].
    pose proof (spec_abs_plain cwd root) as P. rewrite Er in P. apply Forall_app in P. destruct P as [_ P]. inversion P as [|? ? P1 _].
    destruct (lock_visible name) as [Y|Y]; [apply P1|exact V1|exact Y|]. exfalso. destruct P1 as (_ & _ & P1 & _). exact (P1 Y).
Qed.
(** Adding to an index that is in one of the directories given: it gets all of its files as documents. *)
Theorem C108_adding_refuted : forall u c k m n, cfg_full c k m n -> forall ss dk, history u c ss dk -> docs_fit (all_docs ss) ->
  forall fixed fs cwd root fs' x lstat paths docs p cs, rooted cwd -> parents fs -> files_at n fs cwd root = files_of dk ->
  open_indexer_in fs cwd root = (fs', Ok x) -> finds fs' cwd paths lstat -> do_paths (fun _ => true) fixed lstat paths (false, []) = (false, docs) ->
  In p paths -> spec_abs cwd root = spec_abs cwd p ++ cs -> visible cs ->
  forall f, match f with FPosts i | FTable i => (i < n)%nat | _ => True end -> has_document cwd docs (spec_abs cwd (path_of root f)).
Proof.
  intros u c k m n F ss dk Hi Fit fixed fs cwd root fs' x lstat paths docs p cs R Pa Ef Op Fi W Ip Er V f Hf.
  destruct (open_indexer_keeps fs cwd root fs' x Pa Op) as [Pa' Kp].
  assert (D : exists fn rs wss, disk_inv u c k m n (all_docs ss) wss fn rs dk).
  { destruct F as [O Hn Hfl]. destruct (words_total u (all_docs ss)) as (wss & Ww). destruct (history_inv u c k m n O Hn Hfl ss dk Hi Fit wss Ww) as (fn & rs & D). eauto. }
  destruct D as (fn & rs & wss & D). pose proof (di_shards _ _ _ _ _ _ _ _ _ _ D) as Ln.
  assert (Co : exists dat, content_at (files_at n fs cwd root) f = Some dat).
  { rewrite Ef. destruct f as [| | |i|i]; cbn [content_at files_of w_cfg w_dmd w_fnames w_shards].
    - rewrite (di_cfg _ _ _ _ _ _ _ _ _ _ D). cbn [option_map]. eauto.
    - rewrite (di_dmd _ _ _ _ _ _ _ _ _ _ D). unfold dmd_file. eauto.
    - rewrite (di_fnames _ _ _ _ _ _ _ _ _ _ D). eauto.
    - destruct (nth_error (k_shards dk) i) as [s|] eqn:Es; [|apply nth_error_None in Es; lia].
      rewrite (nth_error_nth (map _ _) i (None, None) (map_nth_error _ i (k_shards dk) Es)). cbn [fst snd]. eauto.
    - destruct (nth_error (k_shards dk) i) as [s|] eqn:Es; [|apply nth_error_None in Es; lia].
      rewrite (nth_error_nth (map _ _) i (None, None) (map_nth_error _ i (k_shards dk) Es)). cbn [fst snd]. eauto. }
  destruct Co as (dat & Co). apply files_at_is in Co. destruct (Kp _ _ Co) as (dat' & Ed).
  assert (Hk : int_number f).
  { pose proof (cu_n _ _ _ _ F) as Bn. destruct f as [| | |i|i]; cbn [int_number]; try exact Logic.I; change (2 ^ 63) with 9223372036854775808; clear - Hf Bn; lia. }
  destruct (file_place cwd root f Hk) as (nm & Nm & Ep). rewrite Ep, Er, <- app_assoc in *. eapply walked_at; try eassumption.
  apply Forall_app. split; [exact V|]. repeat constructor. exact (named_visible f nm Nm).
Qed.
Lemma F2_length {A B} (R : A -> B -> Prop) l l' : Forall2 R l l' -> List.length l = List.length l'.
Proof. induction 1; cbn [List.length]; congruence. Qed.
(** Closing then changes them: the document records are others than before, if a document was added, so that the document for
    dmd is not what was indexed. *)
Theorem C108_changed_refuted : forall u c k m n, cfg_full c k m n -> forall ss dk docs dk', history u c ss dk -> session u (open_indexer dk) docs dk' ->
  docs_fit (all_docs (docs :: ss)) -> docs <> [] -> k_dmd dk' <> k_dmd dk.
Proof.
  intros u c k m n F ss dk docs dk' Hi Se Fit Ne E. destruct F as [O Hn Hfl].
  assert (A : all_docs (docs :: ss) = all_docs ss ++ docs) by (unfold all_docs; cbn [rev]; rewrite concat_app; cbn [concat]; rewrite app_nil_r; reflexivity).
  assert (Fit0 : docs_fit (all_docs ss)) by (rewrite A in Fit; exact (fit_app _ _ Fit)).
  destruct (words_total u (all_docs ss)) as (wss & Ww). destruct (history_inv u c k m n O Hn Hfl ss dk Hi Fit0 wss Ww) as (fn & rs & D).
  destruct (words_total u (all_docs (docs :: ss))) as (wss' & Ww').
  destruct (history_inv u c k m n O Hn Hfl (docs :: ss) dk' (history_append u c ss dk docs dk' Hi Se) Fit wss' Ww') as (fn' & rs' & D').
  rewrite (di_dmd _ _ _ _ _ _ _ _ _ _ D), (di_dmd _ _ _ _ _ _ _ _ _ _ D') in E. unfold dmd_file in E. apply (f_equal (fun o : option bytes => match o with Some b => List.length b | None => 0%nat end)) in E. cbv beta iota in E.
  rewrite !render_dmd_length in E. cbn [List.length] in E.
  pose proof (F2_length _ _ _ (di_recs _ _ _ _ _ _ _ _ _ _ D)) as L. pose proof (F2_length _ _ _ (di_recs _ _ _ _ _ _ _ _ _ _ D')) as L'.
  rewrite A, app_length in L'. destruct docs; [congruence|]. cbn [List.length] in L'. lia.
Qed.
(** What is true: a directory that is called like a hidden file, such as ".dupi", is not walked; nor is its lock file taken. So an
    index with such a root has no documents of its own, unless it, or something in it, is asked for. *)
Theorem C108_hidden_partial : forall fixed cwd root lstat paths err docs dir nm, rooted cwd -> (forall p t, lstat p = Some t -> good_tree t) ->
  spec_abs cwd root = dir ++ [nm] -> dot_name nm -> do_paths (fun _ => true) fixed lstat paths (false, []) = (err, docs) ->
  (forall p x, In p paths -> spec_abs cwd p <> spec_abs cwd root ++ x /\ spec_abs cwd p <> dir ++ [nm ++ bs ".lock"] ++ x) ->
  (forall rest, ~ has_document cwd docs (spec_abs cwd root ++ rest)) /\ ~ has_document cwd docs (spec_abs cwd (create_lock cwd root)).
Proof.
  intros fixed cwd root lstat paths err docs dir nm R G Er Dn E Out. split.
  - intros rest. rewrite Er. eapply hidden_root; try eassumption. intros p x Ip. rewrite <- Er. apply (Out p x Ip).
  - rewrite (lock_beside cwd root dir nm R Er). change dot_lock with (bs ".lock").
    assert (Dl : dot_name (nm ++ bs ".lock")) by (destruct Dn as (a & r & ->); exists a, (r ++ bs ".lock"); reflexivity).
    rewrite <- (app_nil_r (dir ++ _)). eapply hidden_root; try eassumption. intros p x Ip. rewrite <- app_assoc. apply (Out p x Ip).
Qed.
(** The root that dupi takes if it is told none is one. *)
Theorem C108_default_root : forall cwd home, rooted home -> exists dir nm, spec_abs cwd (index_root [] [] (Some home)) = dir ++ [nm] /\ dot_name nm.
Proof.
  intros cwd home R. exists (spec_abs cwd home), (bs ".dupi"). split; [|eexists _, _; reflexivity].
  assert (G : good_name (bs ".dupi")) by (apply long_good; [vm_compute; intuition discriminate|cbn; lia]).
  rewrite <- (join_path_spec cwd home (bs ".dupi") G). destruct R as (r & ->). reflexivity.
Qed.
Print Assumptions C108_creating_refuted.
Print Assumptions C108_adding_refuted.
Print Assumptions C108_changed_refuted.
Print Assumptions C108_hidden_partial.
Print Assumptions C108_default_root.

(** In an empty directory "/src": an index "idx" with one shard, of ".". *)
Definition src_empty : fsys := put_node [bs "src"] Directory (put_node [] Directory (fun _ => None)).
Definition src_tree : tree := Dir (Some [(bs "idx", Dir (Some [(bs "b0.pos", Leaf (Reads [])); (bs "b0.pos.iix", Leaf (Reads [1]))])); (bs "idx.lock", Leaf (Reads []))]).
Lemma put_some p x fs q : put_node p x fs q <> None -> p = q \/ fs q <> None.
Proof. unfold put_node. destruct (same_place p q) eqn:E; [left; apply same_place_iff, E|right; assumption]. Qed.
Example C108_example : rooted (bs "/src") /\ parents src_empty /\
  exists fs', start_new 1 src_empty (bs "/src") (bs "idx") = (fs', Ok tt) /\ finds fs' (bs "/src") [bs "."] (fun p => if eq_bytes p (bs ".") then Some src_tree else None) /\
  spec_abs (bs "/src") (bs "idx") = spec_abs (bs "/src") (bs ".") ++ [] ++ [bs "idx"] /\ visible ([] ++ [bs "idx"]) /\
  do_paths (fun _ => true) false (fun p => if eq_bytes p (bs ".") then Some src_tree else None) [bs "."] (false, []) =
    (false, [MkDoc (bs "idx/b0.pos") 0 0 []; MkDoc (bs "idx/b0.pos.iix") 0 1 [1]; MkDoc (bs "idx.lock") 0 0 []]).
Proof.
  assert (Pa : parents src_empty).
  { intros p nm H. unfold src_empty in H. apply put_some in H. destruct H as [E|H].
    - change [bs "src"] with ([] ++ [bs "src"]) in E. apply app_inj_tail in E. destruct E as [<- _]. reflexivity.
    - apply put_some in H. destruct H as [E|H]; [destruct p; discriminate|contradiction H; reflexivity]. }
  split; [eexists; reflexivity|]. split; [exact Pa|]. eexists. split; [reflexivity|]. split; [|split; [reflexivity|split; [|reflexivity]]].
  - split.
    + intros p t H. destruct (eq_bytes p (bs ".")); [|discriminate]. injection H as <-. unfold src_tree.
      repeat first [constructor | progress cbn [map fst snd] | split]; cbn; try (intuition discriminate).
    + intros p t [<-|[]] H. injection H as <-. split; [|split].
      * intros (a & n & k & E & (c & r & ->) & _ & [->|(b & ->)]); [discriminate|]. destruct b as [|? b]; [discriminate|]. destruct b; discriminate.
      * intros cs V H. assert (I : In (cs, CannotOpen) (WalkP.leaves src_tree)) by (apply WalkP.leaves_iff; auto). vm_compute in I. intuition discriminate.
      * unfold put_shards. cbn [seq fold_left].
        set (tb := iix_created).
        apply found_dir; [reflexivity|]. intros nm H.
        repeat (apply put_some in H; destruct H as [H|H]; [try (exfalso; discriminate H)|]); try (exfalso; apply H; reflexivity).
        -- change ([bs "src"] ++ [bs "idx"] = [bs "src"] ++ [nm]) in H. apply app_inj_tail in H. destruct H as [_ <-].
           eexists. split; [left; reflexivity|]. apply found_dir; [reflexivity|]. intros nm H.
           repeat (apply put_some in H; destruct H as [H|H]; [try (exfalso; discriminate H)|]); try (exfalso; apply H; reflexivity).
           ++ change ([bs "src"; bs "idx"] ++ [bs "b0.pos"] = [bs "src"; bs "idx"] ++ [nm]) in H. apply app_inj_tail in H. destruct H as [_ <-].
              eexists. split; [left; reflexivity|]. eapply found_file. reflexivity.
           ++ change ([bs "src"; bs "idx"] ++ [bs "b0.pos.iix"] = [bs "src"; bs "idx"] ++ [nm]) in H. apply app_inj_tail in H. destruct H as [_ <-].
              eexists. split; [right; left; reflexivity|]. eapply found_file. reflexivity.
        -- change ([bs "src"] ++ [bs "idx.lock"] = [bs "src"] ++ [nm]) in H. apply app_inj_tail in H. destruct H as [_ <-].
           eexists. split; [right; left; reflexivity|]. eapply found_file. reflexivity.
  - repeat constructor. intros (c & r & E). discriminate E.
Qed.
(** Home "/h", where "." and everything is asked for. *)
Example C108_hidden_example : spec_abs (bs "/h") (index_root [] [] (Some (bs "/h"))) = [bs "h"] ++ [bs ".dupi"] /\ dot_name (bs ".dupi") /\
  forall p x, In p [bs "."; bs "/"] -> spec_abs (bs "/h") p <> spec_abs (bs "/h") (index_root [] [] (Some (bs "/h"))) ++ x /\ spec_abs (bs "/h") p <> [bs "h"] ++ [bs ".dupi" ++ bs ".lock"] ++ x.
Proof. split; [reflexivity|]. split; [eexists _, _; reflexivity|]. intros p x [<-|[<-|[]]]; split; discriminate. Qed.
(** An index "/x" that has had a session; "x" is asked for again. *)
Definition x_tree : tree := Dir (Some (map (fun s => (bs s, Leaf (Reads []))) ["b0.pos"; "b0.pos.iix"; "b1.pos"; "b1.pos.iix"; "cfg.json"; "dmd"; "files.fnm"]%string)).
Example C108_adding_example : forall u, exists dk fs fs' x docs, history u wit_config [wit_docs] dk /\ docs_fit (all_docs [wit_docs]) /\ rooted (bs "/") /\ parents fs /\
  files_at 2 fs (bs "/") (bs "x") = files_of dk /\ open_indexer_in fs (bs "/") (bs "x") = (fs', Ok x) /\
  finds fs' (bs "/") [bs "x"] (fun p => if eq_bytes p (bs "x") then Some x_tree else None) /\
  do_paths (fun _ => true) false (fun p => if eq_bytes p (bs "x") then Some x_tree else None) [bs "x"] (false, []) = (false, docs) /\ visible [].
Proof.
  intros u. pose proof wit_full as F. destruct wit_full as [A B C].
  assert (V : cfg_values wit_config) by (constructor; try (split; [vm_compute; discriminate|reflexivity]); apply Utf8P.utf8_valid_spec; vm_compute; reflexivity).
  assert (Fit : docs_fit (all_docs [wit_docs])) by (unfold all_docs; cbn [rev app concat]; rewrite app_nil_r; exact wit_fit).
  assert (Hx : exists dk, history u wit_config [wit_docs] dk) by (apply (history_exists u wit_config 1 10 2 A B C); [discriminate|reflexivity|exact Fit]).
  destruct Hx as (dk & Hi).
  destruct (words_total u (all_docs [wit_docs])) as (wss & Ww). destruct (history_inv u wit_config 1 10 2 A B C [wit_docs] dk Hi Fit wss Ww) as (fn & rs & D).
  assert (Bn : nlen (all_docs [wit_docs]) < 4294967295) by apply (df_len _ Fit).
  destruct (open_start u wit_config 1 10 2 A B C (all_docs [wit_docs]) wss fn rs dk D Bn) as (x & ws & Ex & _).
  assert (Sh : exists cf dm nm t0 p0 t1 p1, files_of dk = MkFiles (Some cf) (Some dm) (Some nm) [(Some t0, Some p0); (Some t1, Some p1)]).
  { pose proof (di_shards _ _ _ _ _ _ _ _ _ _ D) as Ln. unfold files_of. rewrite (di_cfg _ _ _ _ _ _ _ _ _ _ D), (di_dmd _ _ _ _ _ _ _ _ _ _ D), (di_fnames _ _ _ _ _ _ _ _ _ _ D).
    destruct (k_shards dk) as [|[t0 p0] [|[t1 p1] [|? ?]]]; try discriminate Ln. cbn [map fst snd option_map]. repeat eexists. }
  destruct Sh as (cf & dm & nm & t0 & p0 & t1 & p1 & Ef).
  set (X := [bs "x"]). set (base := put_node X Directory (put_node [] Directory (fun _ => None))).
  assert (Fr : fresh X base).
  { split; [|split; [reflexivity|]].
    - intros p c H. apply put_some in H. destruct H as [H|H].
      + change ([] ++ [bs "x"] = p ++ [c]) in H. apply app_inj_tail in H. destruct H as [<- _]. reflexivity.
      + apply put_some in H. destruct H as [H|H]; [destruct p; discriminate|contradiction H; reflexivity].
    - intros c H. assert (Y : base (X ++ [c]) <> None) by congruence. apply put_some in Y. destruct Y as [Y|Y]; [discriminate|]. apply put_some in Y. destruct Y as [Y|Y]; [discriminate|apply Y; reflexivity]. }
  set (fs := put_node (X ++ [bs "b0.pos"]) (File p0) (put_node (X ++ [bs "b0.pos.iix"]) (File t0) (put_node (X ++ [bs "b1.pos"]) (File p1) (put_node (X ++ [bs "b1.pos.iix"]) (File t1)
    (put_node (X ++ [bs "cfg.json"]) (File cf) (put_node (X ++ [bs "dmd"]) (File dm) (put_node (X ++ [bs "files.fnm"]) (File nm) base))))))).
  assert (Frs : fresh X fs) by (unfold fs; do 7 apply fresh_put; exact Fr). clear Fr.
  assert (Ea : files_at 2 fs (bs "/") (bs "x") = files_of dk) by (rewrite Ef; reflexivity).
  assert (Eb : files_at 2 fs (bs "/") (bs "/x") = files_of dk) by (rewrite Ef; reflexivity).
  assert (R : rooted (bs "/")) by (eexists; reflexivity).
  destruct (opens_by_paths u wit_config 1 10 2 F V (fun _ => []) [wit_docs] dk Hi (di_shards _ _ _ _ _ _ _ _ _ _ D) (bs "/") (bs "x") fs R eq_refl Eb) as [_ Op].
  rewrite Ex in Op. specialize (Op ltac:(discriminate)). destruct (open_indexer_in fs (bs "/") (bs "x")) as [fs' r] eqn:Ei. cbn [snd] in Op. subst r.
  destruct (open_indexer_in_is fs (bs "/") (bs "x") fs' _ Ei) as [(_ & H)|(c & Ec & _ & Fw & _)]; [contradiction H; eauto|].
  assert (Ecw : c = wit_config).
  { change (w_cfg (files_at _ fs (bs "/") (path_abs (bs "/") (bs "x")))) with (w_cfg (files_at 2 fs (bs "/") (bs "/x"))) in Ec. rewrite Eb in Ec. unfold files_of in Ec.
    rewrite (di_cfg _ _ _ _ _ _ _ _ _ _ D) in Ec. cbn [w_cfg option_map] in Ec. rewrite (CrashP.cfg_back wit_config 1 10 2 F V) in Ec. congruence. }
  subst c. change (spec_abs (bs "/") (append_lock wit_config)) with [bs "x.lock"] in Fw.
  exists dk, fs, fs', (x, ws). eexists. split; [exact Hi|]. split; [exact Fit|]. split; [exact R|]. split; [apply Frs|]. split; [exact Ea|]. split; [exact Ei|]. split; [|split; [reflexivity|constructor]].
  clear - Fw Frs. split.
  - intros p t H. destruct (eq_bytes p (bs "x")); [|discriminate]. injection H as <-. unfold x_tree. constructor.
    + cbn [map fst]. repeat (constructor; [cbn; intuition discriminate|]). constructor.
    + cbn [map fst]. repeat constructor; cbn [fst]; try discriminate; vm_compute; intuition discriminate.
  - intros p t [<-|[]] H. injection H as <-. split; [|split].
    + intros (a & n & k & E & (c & r & ->) & _ & [->|(b & ->)]); [discriminate|]. destruct b as [|? b]; [discriminate|]. destruct b; discriminate.
    + intros cs V H. assert (I : In (cs, CannotOpen) (WalkP.leaves x_tree)) by (apply WalkP.leaves_iff; auto). vm_compute in I. intuition discriminate.
    + change (spec_abs (bs "/") (bs "x")) with X. apply found_dir; [rewrite Fw by discriminate; reflexivity|].
      intros f H. rewrite Fw in H by discriminate.
      assert (Y : forall d, fs (X ++ [f]) = Some (File d) -> fs' (X ++ [f]) = Some (File d)) by (intros d E; rewrite Fw by discriminate; exact E).
      unfold fs in H. repeat (apply put_some in H; destruct H as [H|H]; [|]).
      1-7: apply app_inj_tail in H; destruct H as [_ <-]; eexists; (split; [cbn [x_tree map In]; auto 10|]); eapply found_file, Y; reflexivity.
      * discriminate H.
      * discriminate H.
      * contradiction H. reflexivity.
Qed.
