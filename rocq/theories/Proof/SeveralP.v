(** Several indexes in one file system. *)
From Coq Require Import String.
From Verif Require Import Model.Base Model.Path Model.Utf8 Model.Walk Model.Blotter Model.Config Model.Json Model.Index Model.Query Model.Session Model.Crash Model.Lock Model.Names Model.Self Model.Several.
From Verif Require Import Spec.Str Spec.Paths Spec.Locking Spec.Names Spec.Configs Spec.History Spec.Several.
From Verif Require Import Proof.Tactics Proof.PathP Proof.LockP2 Proof.RootP Proof.CrashP Proof.SessionP Proof.SessionP2 Proof.NamesP.
From Coq Require Import Lia.
Local Open Scope N_scope.
Local Open Scope list_scope.

(** * Paths made of an absolute root *)
Definition clean_root (c : config) : Prop := exists ds, Forall plain_name ds /\ cf_root c = show_abs ds.
Lemma show_slash ds : exists r, show_abs ds = 47 :: r.
Proof. destruct ds as [|d ds]; cbn [show_abs slashed]; eauto. Qed.
Lemma clean_made cwd root c : rooted cwd -> path_abs cwd root = cf_root c -> clean_root c /\ spec_abs cwd root = dir_at c.
Proof.
  intros R E. rewrite path_abs_spec in E by exact R. split; [exists (spec_abs cwd root); split; [apply spec_abs_plain|congruence]|].
  unfold dir_at. rewrite <- E. pose proof (spec_abs_plain cwd root) as P. revert P. generalize (spec_abs cwd root). intros cs P. destruct cs as [|d cs]; [reflexivity|].
  unfold show_abs. rewrite abs_of_slash by (cbn [slashed]; eauto). rewrite pieces_slashed by apply plain_comps, P. symmetry. apply resolve_self, P.
Qed.
Lemma dir_inj c c' : clean_root c -> clean_root c' -> dir_at c = dir_at c' -> cf_root c = cf_root c'.
Proof.
  intros (ds & P & E) (ds' & P' & E') D. unfold dir_at in D. rewrite E, E' in *.
  assert (X : forall cs, Forall plain_name cs -> spec_abs [47] (show_abs cs) = cs).
  { intros cs Q. destruct cs as [|d cs]; [reflexivity|]. unfold show_abs. rewrite abs_of_slash by (cbn [slashed]; eauto). rewrite pieces_slashed by apply plain_comps, Q. apply resolve_self, Q. }
  rewrite !X in D by assumption. congruence.
Qed.
Lemma any_cwd c cwd : clean_root c -> (spec_abs cwd (cf_root c) = dir_at c) /\ (spec_abs cwd (append_lock c) = lock_at c) /\ forall k, spec_abs cwd (path_of (cf_root c) k) = file_in c k.
Proof.
  intros (ds & P & E). unfold dir_at, lock_at, append_lock, lock_path, file_in. destruct (show_slash ds) as (r & Er).
  assert (A : spec_abs cwd (cf_root c) = spec_abs [47] (cf_root c)) by (rewrite E, !abs_of_slash by eauto; reflexivity).
  split; [exact A|]. split.
  - rewrite E, Er, !abs_of_slash by (cbn [app]; eauto). reflexivity.
  - intros k. destruct (file_at_places (cf_root c) k) as (nm & _ & _ & _ & _ & _ & X). rewrite !X, A. reflexivity.
Qed.
Lemma file_not_lock c c' k : lock_at c <> file_in c' k.
Proof. apply lock_apart. Qed.
Lemma file_other c c' k k' : clean_root c -> clean_root c' -> int_number k -> int_number k' -> file_in c k = file_in c' k' -> cf_root c = cf_root c' /\ k = k'.
Proof. intros C C' L L' E. destruct (files_apart _ _ _ _ _ L L' E) as [-> D]. split; [exact (dir_inj c c' C C' D)|reflexivity]. Qed.
Lemma files_ext c fs fs' : (forall k, In k (kinds (num_files c)) -> read_at fs' (file_in c k) = read_at fs (file_in c k)) ->
  files_at (num_files c) fs' [47] (cf_root c) = files_at (num_files c) fs [47] (cf_root c).
Proof.
  intros H. unfold files_at. cbv zeta.
  assert (A : forall k, In k (kinds (num_files c)) -> read_at fs' (spec_abs [47] (path_of (cf_root c) k)) = read_at fs (spec_abs [47] (path_of (cf_root c) k))) by exact H.
  rewrite !A by (unfold kinds; cbn; auto). apply f_equal. apply map_ext_in. intros i I.
  rewrite !A; [reflexivity|unfold kinds; apply in_or_app; right; apply in_or_app; right; apply in_map, I|unfold kinds; apply in_or_app; right; apply in_or_app; left; apply in_map, I].
Qed.
(** * Files put *)
Lemma put_files_other c fl ks : forall fs q, (forall k, In k ks -> file_in c k <> q) ->
  fold_left (fun fs k => match content_at fl k with Some b => put_node (file_in c k) (File b) fs | None => fs end) ks fs q = fs q.
Proof.
  induction ks as [|k ks IH]; intros fs q H; [reflexivity|]. cbn [fold_left]. rewrite IH by (intros k' I; apply H; right; exact I).
  destruct (content_at fl k); [|reflexivity]. apply put_other. apply H. left. reflexivity.
Qed.
Lemma put_files_at c fl fs : N.of_nat (num_files c) < 2 ^ 63 -> forall k b, In k (kinds (num_files c)) -> content_at fl k = Some b -> put_files c fl fs (file_in c k) = Some (File b).
Proof.
  intros L k b I. assert (G : forall ks fs, (forall k, In k ks -> int_number k) -> int_number k -> In k ks -> content_at fl k = Some b ->
    fold_left (fun fs k => match content_at fl k with Some b => put_node (file_in c k) (File b) fs | None => fs end) ks fs (file_in c k) = Some (File b)).
  { induction ks as [|k' ks IH]; intros fs0 Hk Lk Ik Eb; [destruct Ik|]. cbn [fold_left].
    destruct (in_dec (fun a b : ifile => ltac:(decide equality; apply Nat.eq_dec)) k ks) as [J|J]; [apply IH; auto using in_cons|].
    destruct Ik as [->|Ik]; [|contradiction]. rewrite Eb. rewrite put_files_other; [apply put_same|].
    intros k2 I2 E. apply files_apart in E; [|apply Hk; right; exact I2|exact Lk]. destruct E as [-> _]. contradiction. }
  intros Eb. unfold put_files. apply G; [intros k'; apply small_kinds, L|exact (small_kinds _ _ L I)|exact I|exact Eb].
Qed.
Lemma put_files_keeps c fl fs q : (forall k, In k (kinds (num_files c)) -> file_in c k <> q) -> put_files c fl fs q = fs q.
Proof. apply put_files_other. Qed.
(** Directories and files stay what they are. *)
Lemma put_files_dir c fl fs q : writable fs c -> fs q = Some Directory -> put_files c fl fs q = Some Directory.
Proof. intros W D. rewrite put_files_keeps; [exact D|]. intros k I <-. exact (W k I D). Qed.
Lemma put_files_file c fl : forall ks fs q, (exists d, fs q = Some (File d)) -> exists d,
  fold_left (fun fs k => match content_at fl k with Some b => put_node (file_in c k) (File b) fs | None => fs end) ks fs q = Some (File d).
Proof.
  induction ks as [|k ks IH]; intros fs q (d & E); [eauto|]. cbn [fold_left]. apply IH. destruct (content_at fl k) as [b|]; [|eauto].
  unfold put_node. destruct (same_place _ _); eauto.
Qed.
Lemma put_shards_keeps c q fs : (forall k, In k (kinds (num_files c)) -> file_in c k <> q) -> put_shards (num_files c) [47] (cf_root c) fs q = fs q.
Proof.
  unfold put_shards. generalize iix_created. intros tb. intros H.
  assert (G : forall n s fs, (forall i, (s <= i < s + n)%nat -> file_in c (FPosts i) <> q /\ file_in c (FTable i) <> q) ->
    fold_left (fun fs i => put_node (spec_abs [47] (path_of (cf_root c) (FPosts i))) (File [])
                           (put_node (spec_abs [47] (path_of (cf_root c) (FTable i))) (File tb) fs)) (seq s n) fs q = fs q).
  { induction n as [|n IH]; intros s fs0 G; [reflexivity|]. cbn [seq fold_left]. rewrite IH by (intros i Hi; apply G; lia).
    destruct (G s ltac:(lia)) as [A B]. rewrite !put_other; [reflexivity|exact B|exact A]. }
  apply G. intros i Hi. split; apply H; unfold kinds; apply in_or_app; right; apply in_or_app; [right|left]; apply in_map, in_seq; lia.
Qed.

(** * What happens to one index does not matter to the others *)
Definition is_file (x : option node) : Prop := exists d, x = Some (File d).
Definition there (fs : fsys) (c : config) : Prop := fs (dir_at c) = Some Directory /\ is_file (fs (lock_at c)).
Definition files_now (fs : fsys) (c : config) : files := files_at (num_files c) fs [47] (cf_root c).
(** Something is a directory, or a file, or not there; it can come into being and files can change. *)
Definition grows (fs fs' : fsys) : Prop := forall q, (fs q = Some Directory -> fs' q = Some Directory) /\ (is_file (fs q) -> is_file (fs' q)).
Lemma grows_there fs fs' c : grows fs fs' -> there fs c -> there fs' c.
Proof. intros G (A & B). split; [apply G, A|apply G, B]. Qed.
Lemma grows_trans a b c : grows a b -> grows b c -> grows a c.
Proof. intros G H q. destruct (G q), (H q). auto. Qed.
Lemma grows_lock fs p fs' : lock_file fs p = Some fs' -> grows fs fs'.
Proof.
  intros E. destruct (lock_file_inv _ _ _ E) as (A & B & C). intros q. destruct (list_eq_dec (list_eq_dec N.eq_dec) q p) as [->|Ne]; [|rewrite (B q Ne); auto].
  split; [intros D; contradiction|]. intros _. rewrite A. exists []. reflexivity.
Qed.
Lemma grows_refl fs : grows fs fs.
Proof. intros q. auto. Qed.
Lemma grows_put fs p b : fs p <> Some Directory -> grows fs (put_node p (File b) fs).
Proof.
  intros N q. destruct (list_eq_dec (list_eq_dec N.eq_dec) p q) as [<-|Ne]; [|rewrite put_other by exact Ne; auto]. rewrite put_same. split; [contradiction|]. intros _. exists b. reflexivity.
Qed.
Lemma grows_put_files c fl fs : writable fs c -> grows fs (put_files c fl fs).
Proof. intros W q. split; [apply put_files_dir, W|apply put_files_file]. Qed.
Lemma grows_put_shards c fs : writable fs c -> grows fs (put_shards (num_files c) [47] (cf_root c) fs).
Proof.
  intros W. unfold put_shards. generalize iix_created. intros tb.
  assert (G : forall n s fs, (forall i, (s <= i < s + n)%nat -> fs (file_in c (FPosts i)) <> Some Directory /\ fs (file_in c (FTable i)) <> Some Directory) ->
    grows fs (fold_left (fun fs i => put_node (spec_abs [47] (path_of (cf_root c) (FPosts i))) (File [])
                           (put_node (spec_abs [47] (path_of (cf_root c) (FTable i))) (File tb) fs)) (seq s n) fs)).
  { assert (Q : forall p b fs q, fs q <> Some Directory -> put_node p (File b) fs q <> Some Directory) by (intros p b fs0 q N; unfold put_node; destruct (same_place p q); [discriminate|exact N]).
    induction n as [|n IH]; intros s fs0 H; [apply grows_refl|]. cbn [seq fold_left].
    destruct (H s ltac:(lia)) as [A B]. eapply grows_trans; [|apply IH; intros i Hi; destruct (H i ltac:(lia)); split; apply Q, Q; assumption].
    eapply grows_trans; [apply grows_put; exact B|]. apply grows_put, Q. exact A. }
  apply G. intros i Hi. split; apply W; unfold kinds; apply in_or_app; right; apply in_or_app; [right|left]; apply in_map, in_seq; lia.
Qed.

Lemma alive_created evs c : In c (alive evs) -> In (Created c) evs.
Proof.
  induction evs as [|[c'|c' docs|c'|c'|] evs IH]; cbn [alive]; [intros []|intros I|intros I; right; auto|intros I|intros I|intros I; right; auto].
  - destruct I as [->|I]; [left; reflexivity|right; auto].
  - apply filter_In in I. right. apply IH, I.
  - apply filter_In in I. right. apply IH, I.
Qed.
Lemma fits_tail e evs : fits (e :: evs) -> fits evs.
Proof.
  intros [A B]. split; [intros c I; apply A; right; exact I|]. intros l b E. apply (B (e :: l) b). cbn [app]. congruence.
Qed.
Lemma fits_now evs c : fits evs -> In c (alive evs) -> (exists k m n, cfg_full c k m n) /\ cfg_values c /\ docs_fit (all_docs (own c evs)).
Proof.
  intros [A B] I. destruct (A c (alive_created _ _ I)) as [X Y]. split; [exact X|]. split; [exact Y|]. exact (B [] evs eq_refl c I).
Qed.
Lemma small_num c k m n : cfg_full c k m n -> num_files c = n /\ N.of_nat (num_files c) < 2 ^ 63.
Proof.
  intros F. unfold num_files. rewrite (co_shards _ _ _ _ (cu_ok _ _ _ _ F)), Nat2Z.id. split; [reflexivity|]. eapply N.lt_trans; [exact (cu_n _ _ _ _ F)|reflexivity].
Qed.
Lemma create_grows fs cwd root fs' r : rooted cwd -> create_in fs cwd root = (fs', r) -> grows fs fs'.
Proof.
  intros R E. destruct (create_in_is fs cwd root fs' r R E) as [(-> & _)|(A & B & C & D)]; [apply grows_refl|]. intros q.
  destruct (list_eq_dec (list_eq_dec N.eq_dec) q (spec_abs cwd (create_lock cwd root))) as [->|N1].
  - split; [intros X; contradiction|]. intros _. rewrite A. exists []. reflexivity.
  - destruct (list_eq_dec (list_eq_dec N.eq_dec) q (spec_abs cwd root)) as [->|N2]; [|rewrite (B q N1 N2); auto].
    destruct D as [(_ & Dn & _)|(_ & ->)]; [rewrite Dn; split; [discriminate|intros (d & X); discriminate]|auto].
Qed.
(** Creating, whatever comes of it, changes no file but the lock file. *)
Lemma create_reads fs cwd root fs' r c k : rooted cwd -> create_in fs cwd root = (fs', r) -> read_at fs' (file_in c k) = read_at fs (file_in c k).
Proof.
  intros R E. destruct (create_in_is fs cwd root fs' r R E) as [(-> & _)|(A & B & C & D)]; [reflexivity|]. unfold read_at.
  destruct (list_eq_dec (list_eq_dec N.eq_dec) (file_in c k) (spec_abs cwd root)) as [Ed|N2].
  - rewrite Ed. destruct D as [(_ & -> & ->)|(_ & ->)]; reflexivity.
  - rewrite B; [reflexivity| |exact N2]. intros X. destruct (lock_place cwd (path_abs cwd root)) as (dir & w & P). unfold create_lock in X. rewrite P in X.
    unfold file_in in X. destruct (file_at_place [47] (cf_root c) k) as (nm & a & z & En & Nz & _ & P'). rewrite P' in X. apply app_inj_tail in X. destruct X as [_ X]. rewrite En in X.
    change dot_lock with (bs ".loc" ++ [107]) in X. rewrite app_assoc in X. apply app_inj_tail in X. destruct X as [_ X]. congruence.
Qed.
Lemma lock_reads fs cwd root fs' c k : (forall q, q <> spec_abs cwd (lock_path root) -> fs' q = fs q) -> read_at fs' (file_in c k) = read_at fs (file_in c k).
Proof.
  intros B. unfold read_at. rewrite B; [reflexivity|]. intros X. destruct (lock_place cwd root) as (dir & w & P). rewrite P in X.
  unfold file_in in X. destruct (file_at_place [47] (cf_root c) k) as (nm & a & z & En & Nz & _ & P'). rewrite P' in X. apply app_inj_tail in X. destruct X as [_ X]. rewrite En in X.
  change dot_lock with (bs ".loc" ++ [107]) in X. rewrite app_assoc in X. apply app_inj_tail in X. destruct X as [_ X]. congruence.
Qed.
Lemma locked_grows fs p fs' : fs' p = Some (File []) -> (forall q, q <> p -> fs' q = fs q) -> fs p <> Some Directory -> grows fs fs'.
Proof.
  intros A B C q. destruct (list_eq_dec (list_eq_dec N.eq_dec) q p) as [->|Ne]; [|rewrite (B q Ne); auto]. split; [intros D; contradiction|]. intros _. rewrite A. exists []. reflexivity.
Qed.

(** * Removing *)
Lemma inside_last p q x : inside p (q ++ [x]) = true -> inside p q = true \/ p = q ++ [x].
Proof.
  revert q. induction p as [|y p IH]; intros q; [left; reflexivity|]. destruct q as [|z q]; cbn [app inside].
  - destruct (list_eq_dec N.eq_dec y x) as [->|]; [|discriminate]. destruct p; [auto|discriminate].
  - destruct (list_eq_dec N.eq_dec y z) as [->|]; [|discriminate]. intros H. destruct (IH q H) as [X|X]; [auto|right; congruence].
Qed.
Lemma inside_app p q r : inside p q = true -> inside p (q ++ r) = true.
Proof.
  revert q. induction p as [|y p IH]; intros q; [reflexivity|]. destruct q as [|z q]; cbn [app inside]; [discriminate|].
  destruct (list_eq_dec N.eq_dec y z); [apply IH|discriminate].
Qed.
Lemma inside_file c c' k : inside (dir_at c) (file_in c' k) = true -> inside (dir_at c) (dir_at c') = true \/ dir_at c = file_in c' k.
Proof. unfold file_in. destruct (file_at_place [47] (cf_root c') k) as (nm & _ & _ & _ & _ & _ & ->). apply inside_last. Qed.
Lemma root_abs c cwd : rooted cwd -> clean_root c -> path_abs cwd (cf_root c) = cf_root c.
Proof.
  intros R Cl. rewrite path_abs_spec by exact R. rewrite (proj1 (any_cwd c cwd Cl)). destruct Cl as (ds & P & E). unfold dir_at. rewrite E.
  destruct ds as [|d ds]; [reflexivity|]. unfold show_abs at 2. rewrite abs_of_slash by (cbn [slashed]; eauto). rewrite pieces_slashed by apply plain_comps, P. rewrite resolve_self by exact P. reflexivity.
Qed.
Lemma inside_lock c c' : clean_root c' -> inside (dir_at c) (lock_at c') = true -> inside (dir_at c) (dir_at c') = true \/ dir_at c = lock_at c'.
Proof.
  intros Cl. assert (R : rooted [47]) by (exists []; reflexivity). destruct (create_lock_place [47] (cf_root c') R) as (d & e & w & E1 & E2).
  unfold create_lock in E1. rewrite (root_abs c' [47] R Cl) in E1. change (spec_abs [47] (lock_path (cf_root c'))) with (lock_at c') in E1. change (spec_abs [47] (cf_root c')) with (dir_at c') in E2.
  rewrite E1, E2. intros H. destruct (inside_last _ _ _ H) as [X|X]; [left; apply inside_app, X|right; exact X].
Qed.

(** * The invariant *)
Record inv (u : unicode) (evs : list event) (w : world) : Prop := {
  i_clean : forall c, In c (alive evs) -> clean_root c;
  i_there : forall c, In c (alive evs) -> there (fs_now w) c;
  i_once : forall c c', In c (alive evs) -> In c' (alive evs) -> cf_root c = cf_root c' -> c = c';
  i_one : NoDup (map (fun p => cf_root (fst p)) (under_way w));
  i_busy : forall c st, In (c, st) (under_way w) -> In c (alive evs) /\
    (own c evs = [] /\ st = create_indexer c \/ exists dk, history u c (own c evs) dk /\ st = open_indexer dk);
  i_rest : forall c, In c (alive evs) -> ~ busy w c -> exists dk, history u c (own c evs) dk /\ files_now (fs_now w) c = files_of dk }.
(** A step that changes no index. *)
Lemma inv_still u evs w fs' : inv u evs w -> (forall c, In c (alive evs) -> there (fs_now w) c -> there fs' c) ->
  (forall c, In c (alive evs) -> ~ busy w c -> forall k, In k (kinds (num_files c)) -> read_at fs' (file_in c k) = read_at (fs_now w) (file_in c k)) ->
  inv u (Else :: evs) (MkWorld fs' (under_way w)).
Proof.
  intros [A B C E F G] Gr Rd. constructor; cbn [fs_now under_way own alive].
  - exact A.
  - intros c I. exact (Gr c I (B c I)).
  - exact C.
  - exact E.
  - exact F.
  - intros c I N. destruct (G c I N) as (dk & Hi & Ef). exists dk. split; [exact Hi|]. rewrite <- Ef. apply files_ext. exact (Rd c I N).
Qed.

Lemma busy_dec w c : busy w c \/ ~ busy w c.
Proof. unfold busy. destruct (in_dec (list_eq_dec N.eq_dec) (cf_root c) (map (fun p => cf_root (fst p)) (under_way w))); auto. Qed.
(** What a finished session leaves is what is read at its paths. *)
Lemma put_files_now c dk fs : N.of_nat (num_files c) < 2 ^ 63 -> List.length (k_shards dk) = num_files c -> k_cfg dk <> None -> k_fnames dk <> None ->
  (k_dmd dk = None -> read_at fs (file_in c FDmd) = None) -> files_now (put_files c (files_of dk) fs) c = files_of dk.
Proof.
  intros L Ln Nc Nf Nd. unfold files_now, files_at. cbv zeta.
  assert (P : forall k b, In k (kinds (num_files c)) -> content_at (files_of dk) k = Some b -> read_at (put_files c (files_of dk) fs) (spec_abs [47] (path_of (cf_root c) k)) = Some b).
  { intros k b I E. unfold read_at. change (spec_abs [47] (path_of (cf_root c) k)) with (file_in c k). rewrite (put_files_at c (files_of dk) fs L k b I E). reflexivity. }
  destruct dk as [cf dm nm sh]. cbn [k_cfg k_dmd k_fnames k_shards] in *.
  transitivity (MkFiles (option_map (config_write None) cf) dm nm (map (fun p => (Some (fst p), Some (snd p))) sh)); [|reflexivity]. f_equal.
  - destruct cf as [cf|]; [|contradiction]. apply P; [unfold kinds; cbn; auto|reflexivity].
  - destruct dm as [dm|]; [apply P; [unfold kinds; cbn; auto|reflexivity]|]. transitivity (read_at fs (file_in c FDmd)); [|exact (Nd eq_refl)]. unfold read_at. change (spec_abs [47] (path_of (cf_root c) FDmd)) with (file_in c FDmd).
    assert (X : put_files c (files_of (MkDisk cf None nm sh)) fs (file_in c FDmd) = fs (file_in c FDmd)).
    { unfold put_files. assert (G : forall ks fs, (forall k, In k ks -> int_number k) -> fold_left (fun fs k => match content_at (files_of (MkDisk cf None nm sh)) k with Some b => put_node (file_in c k) (File b) fs | None => fs end) ks fs (file_in c FDmd) = fs (file_in c FDmd)).
      { induction ks as [|k ks IH]; intros fs0 H; [reflexivity|]. cbn [fold_left]. rewrite IH by (intros; apply H; right; assumption).
        destruct (content_at (files_of (MkDisk cf None nm sh)) k) as [b|] eqn:Eb; [|reflexivity]. apply put_other. intros E. apply files_apart in E; [|apply H; left; reflexivity|exact Logic.I]. destruct E as [-> _]. discriminate. }
      apply G. intros k. apply small_kinds, L. }
    rewrite X. reflexivity.
  - destruct nm as [nm|]; [|contradiction]. apply P; [unfold kinds; cbn; auto|reflexivity].
  - rewrite <- Ln. transitivity (map (fun i => nth i (map (fun p => (Some (fst p), Some (snd p))) sh) (None, None)) (seq 0 (List.length sh))).
    + apply map_ext_in. intros i I. apply in_seq in I. destruct (nth_error sh i) as [[tb ps]|] eqn:E; [|apply nth_error_None in E; exfalso; clear -I E; lia].
      assert (En : nth i (map (fun p : bytes * bytes => (Some (fst p), Some (snd p))) sh) (None, None) = (Some tb, Some ps)) by (apply nth_error_nth; rewrite nth_error_map, E; reflexivity).
      rewrite En. rewrite (P (FTable i) tb), (P (FPosts i) ps); [reflexivity| | | |].
      * unfold kinds. apply in_or_app. right. apply in_or_app. right. apply in_map, in_seq. rewrite <- Ln. exact I.
      * cbn [content_at files_of w_shards k_shards]. rewrite En. reflexivity.
      * unfold kinds. apply in_or_app. right. apply in_or_app. left. apply in_map, in_seq. rewrite <- Ln. exact I.
      * cbn [content_at files_of w_shards k_shards]. rewrite En. reflexivity.
    + rewrite <- (map_length (fun p : bytes * bytes => (Some (fst p), Some (snd p))) sh). apply map_seq_nth.
Qed.
Lemma history_files u c k m n ss dk : cfg_full c k m n -> history u c ss dk -> docs_fit (all_docs ss) ->
  List.length (k_shards dk) = n /\ k_cfg dk <> None /\ k_fnames dk <> None /\ k_dmd dk <> None.
Proof.
  intros [O Hn Hfl] Hi Fit. destruct (words_total u (all_docs ss)) as (wss & Ww). destruct (history_inv u c k m n O Hn Hfl ss dk Hi Fit wss Ww) as (fn & rs & D).
  split; [exact (di_shards _ _ _ _ _ _ _ _ _ _ D)|]. rewrite (di_cfg _ _ _ _ _ _ _ _ _ _ D), (di_fnames _ _ _ _ _ _ _ _ _ _ D), (di_dmd _ _ _ _ _ _ _ _ _ _ D). repeat split; discriminate.
Qed.
Section Life.
  Variable u : unicode.

  Theorem life_inv evs w : life u evs w -> fits evs -> inv u evs w.
  Proof.
    intros Li. induction Li as [fs|evs w cwd root c fs' Li IH R Er Ec Wr|evs w cwd root c fs' x Li IH R Ic Er Nb Eo|evs w c st fs' Li IH Iw Same Dirs|evs fs a b c st docs dk Li IH Se Wr
      |evs w sorted cwd root fs' r Li IH Eo|evs w cwd root fs' e Li IH R Ec|evs w cwd root fs' r Li IH Eo No|evs fs a b c st Li IH|evs w c Li IH Ic Free|evs w fs' Li IH Oth]; intros Ft.
    - constructor; cbn; intros; try contradiction. constructor.
    - specialize (IH (fits_tail _ _ Ft)). destruct IH as [A B C E F G]. destruct (clean_made cwd root c R Er) as [Cl Ed].
      pose proof (create_grows _ _ _ _ _ R Ec) as Gr. pose proof (grows_put_shards c fs' Wr) as Gs. pose proof (grows_trans _ _ _ Gr Gs) as Gt.
      assert (Dir : fs_now w (dir_at c) = None /\ fs' (dir_at c) = Some Directory /\ fs' (lock_at c) = Some (File [])).
      { destruct (create_in_is _ _ _ _ _ R Ec) as [(_ & X & _)|(X1 & _ & _ & [(_ & X2 & X3)|(X & _)])]; [discriminate X| |discriminate X]. rewrite Ed in X2, X3.
        unfold create_lock in X1. rewrite Er in X1. change (lock_path (cf_root c)) with (append_lock c) in X1. rewrite (proj1 (proj2 (any_cwd c cwd Cl))) in X1. auto. }
      destruct Dir as (Dn & Dd & Dl).
      assert (New : forall c', In c' (alive evs) -> cf_root c' <> cf_root c).
      { intros c' I X. destruct (B c' I) as [Y _]. unfold dir_at in Y, Dn. rewrite X, Dn in Y. discriminate. }
      assert (Ow : own c (Created c :: evs) = []) by (cbn [own]; destruct (list_eq_dec N.eq_dec (cf_root c) (cf_root c)); congruence).
      assert (Os : forall c', In c' (alive evs) -> own c' (Created c :: evs) = own c' evs).
      { intros c' I. cbn [own]. destruct (list_eq_dec N.eq_dec (cf_root c) (cf_root c')); [contradiction (New c' I); congruence|reflexivity]. }
      constructor; cbn [fs_now under_way alive].
      + intros c' [X|I]; [congruence|exact (A c' I)].
      + intros c' [X|I]; [|exact (grows_there _ _ _ Gt (B c' I))]. assert (c' = c) as -> by congruence. apply (grows_there _ _ _ Gs). split; [exact Dd|]. exists []. exact Dl.
      + intros c1 c2 [X|I] [Y|I'] Z; [congruence| | |exact (C c1 c2 I I' Z)].
        * assert (c1 = c) as -> by congruence. contradiction (New c2 I' (eq_sym Z)).
        * assert (c2 = c) as -> by congruence. contradiction (New c1 I Z).
      + cbn [map fst]. constructor; [|exact E]. intros I. apply in_map_iff in I. destruct I as ((c' & st) & X & I). cbn [fst] in X. exact (New c' (proj1 (F c' st I)) X).
      + intros c' st [X|I].
        * assert (c' = c /\ st = create_indexer c) as [-> ->] by (split; congruence). split; [left; reflexivity|]. left. auto.
        * destruct (F c' st I) as [I1 X]. split; [right; exact I1|rewrite (Os c' I1); exact X].
      + intros c' [X|I] Nb.
        * assert (c' = c) as -> by congruence. contradiction Nb. unfold busy. left. reflexivity.
        * destruct (G c' I) as (dk & Hi & Ef); [intros X; apply Nb; right; exact X|]. exists dk. rewrite (Os c' I). split; [exact Hi|]. rewrite <- Ef. apply files_ext. intros k Ik.
          transitivity (read_at fs' (file_in c' k)); [|exact (create_reads _ _ _ _ _ _ _ R Ec)]. unfold read_at. rewrite put_shards_keeps; [reflexivity|].
          intros k' Ik' X. destruct (fits_now _ c Ft (or_introl eq_refl)) as ((? & ? & ? & Fu) & _). destruct (fits_now _ c' Ft (or_intror I)) as ((? & ? & ? & Fu') & _).
          destruct (file_other c c' k' k Cl (A c' I) (small_kinds _ _ (proj2 (small_num _ _ _ _ Fu)) Ik') (small_kinds _ _ (proj2 (small_num _ _ _ _ Fu')) Ik) X) as [Y _].
          exact (New c' I (eq_sym Y)).
    - pose proof (fits_tail _ _ Ft) as Ft'. specialize (IH Ft'). pose proof IH as [A B C E F G].
      destruct (fits_now _ c Ft' Ic) as ((k & m & n & Fu) & V & Fit). destruct (small_num _ _ _ _ Fu) as [En Ls]. destruct (clean_made cwd root c R Er) as [Cl Ed].
      destruct (G c Ic Nb) as (dk & Hi & Ef). destruct (history_files u c k m n _ dk Fu Hi Fit) as (Ln & _).
      assert (Efw : files_at n (fs_now w) cwd (cf_root c) = files_of dk).
      { rewrite <- Ef, <- En. unfold files_now, files_at. cbv zeta. destruct (any_cwd c cwd Cl) as (_ & _ & X). unfold file_in in X. rewrite !X. f_equal. apply map_ext. intros i. rewrite !X. reflexivity. }
      destruct (opens_by_paths u c k m n Fu V (fun _ => []) _ dk Hi Ln cwd root (fs_now w) R Er Efw) as [_ Op].
      assert (Lk : lock_file (fs_now w) (spec_abs cwd (append_lock c)) <> None).
      { rewrite (proj1 (proj2 (any_cwd c cwd Cl))). destruct (B c Ic) as [_ (d & X)]. unfold lock_file. rewrite X. discriminate. }
      specialize (Op Lk). rewrite Eo in Op. cbn [snd] in Op.
      destruct (open_indexer_in_is _ _ _ _ _ Eo) as [(_ & X)|(c2 & _ & X1 & X2 & X3 & _)]; [contradiction X; eauto|]. unfold append_lock in X1, X2, X3.
      pose proof (inv_still u evs w fs' IH (fun c' _ T => grows_there _ _ _ (locked_grows _ _ _ X1 X2 X3) T) (fun c' _ _ k' _ => lock_reads _ _ _ _ c' k' X2)) as [A' B' C' E' F' G'].
      constructor; cbn [fs_now under_way own alive] in *; try assumption.
      + cbn [map fst]. constructor; [exact Nb|exact E'].
      + intros c' st [X|I]; [|exact (F' c' st I)]. assert (c' = c /\ st = Ok x) as [-> ->] by (split; congruence). split; [exact Ic|]. right. exists dk. auto.
      + intros c' I Nb'. apply G'; [exact I|]. intros X. apply Nb'. right. exact X.
    - pose proof (fits_tail _ _ Ft) as Ft'. specialize (IH Ft'). pose proof IH as [A B C E F G]. destruct (F c st Iw) as [Ic _].
      assert (Oth : forall c' k', In c' (alive evs) -> cf_root c' <> cf_root c -> In k' (kinds (num_files c')) -> fs' (file_in c' k') = fs_now w (file_in c' k')).
      { intros c' k' I Ne Ik'. apply Same. intros k Ik X. destruct (fits_now _ c Ft' Ic) as ((? & ? & ? & Fu) & _). destruct (fits_now _ c' Ft' I) as ((? & ? & ? & Fu') & _).
        destruct (file_other c' c k' k (A c' I) (A c Ic) (small_kinds _ _ (proj2 (small_num _ _ _ _ Fu')) Ik') (small_kinds _ _ (proj2 (small_num _ _ _ _ Fu)) Ik) X) as [Y _]. contradiction. }
      apply inv_still; [exact IH| |].
      + intros c' I [T1 T2]. split; [apply Dirs, T1|]. rewrite Same; [exact T2|]. intros k _. apply file_not_lock.
      + intros c' I Nb k' Ik'. unfold read_at. rewrite Oth; [reflexivity|exact I| |exact Ik']. intros X. apply Nb. unfold busy. rewrite X. apply in_map_iff. exists (c, st). auto.
    - pose proof (fits_tail _ _ Ft) as Ft'. specialize (IH Ft'). destruct IH as [A B C E F G]. cbn [fs_now under_way] in *.
      assert (Iw : In (c, st) (a ++ (c, st) :: b)) by (apply in_or_app; right; left; reflexivity). destruct (F c st Iw) as [Ic St].
      destruct (fits_now (Finished c docs :: evs) c Ft Ic) as ((k & m & n & Fu) & V & Fit). destruct (small_num _ _ _ _ Fu) as [En Ls].
      assert (Ow : own c (Finished c docs :: evs) = docs :: own c evs) by (cbn [own]; destruct (list_eq_dec N.eq_dec (cf_root c) (cf_root c)); congruence).
      assert (Hi : history u c (docs :: own c evs) dk).
      { destruct St as [[-> ->]|(dk0 & H0 & ->)]; [apply history_create; exact Se|exact (history_append u c _ dk0 docs dk H0 Se)]. }
      rewrite map_app in E. cbn [map fst] in E. pose proof (NoDup_remove_1 _ _ _ E) as E1. pose proof (NoDup_remove_2 _ _ _ E) as E2.
      assert (Os : forall c', In c' (alive evs) -> cf_root c' <> cf_root c -> own c' (Finished c docs :: evs) = own c' evs).
      { intros c' _ Ne. cbn [own]. destruct (list_eq_dec N.eq_dec (cf_root c) (cf_root c')); congruence. }
      constructor; cbn [fs_now under_way alive].
      + exact A.
      + intros c' I. exact (grows_there _ _ _ (grows_put_files c _ fs Wr) (B c' I)).
      + exact C.
      + rewrite map_app. exact E1.
      + intros c' st' I. assert (I' : In (c', st') (a ++ (c, st) :: b)) by (apply in_app_or in I; apply in_or_app; destruct I; [left|right; right]; assumption).
        destruct (F c' st' I') as [I1 X]. split; [exact I1|]. rewrite Os; [exact X|exact I1|]. intros Y. apply E2. rewrite <- map_app. rewrite <- Y. apply in_map_iff. exists (c', st'). auto.
      + intros c' I Nb. destruct (list_eq_dec N.eq_dec (cf_root c') (cf_root c)) as [Y|Y].
        * assert (c' = c) as -> by exact (C c' c I Ic Y). exists dk. rewrite Ow in *. split; [exact Hi|].
          destruct (history_files u c k m n _ dk Fu Hi Fit) as (Ln & Nc & Nf & Nd). apply put_files_now; [exact Ls|congruence|exact Nc|exact Nf|intros; contradiction].
        * rewrite Os by assumption. destruct (G c' I) as (dk' & Hi' & Ef').
          { unfold busy in *. cbn [under_way] in *. intros X. apply Nb. rewrite !map_app in *. apply in_app_or in X. apply in_or_app. destruct X as [X|[X|X]]; [left; exact X|cbn [fst] in X; congruence|right; exact X]. }
          exists dk'. split; [exact Hi'|]. rewrite <- Ef'. apply files_ext. intros k' Ik'. unfold read_at. rewrite put_files_keeps; [reflexivity|].
          intros k2 Ik2 X. destruct (fits_now _ c' Ft' I) as ((? & ? & ? & Fu') & _).
          destruct (file_other c c' k2 k' (A c Ic) (A c' I) (small_kinds _ _ Ls Ik2) (small_kinds _ _ (proj2 (small_num _ _ _ _ Fu')) Ik') X) as [Z _]. congruence.
    - specialize (IH (fits_tail _ _ Ft)). destruct (open_index_in_is _ _ _ _ _ _ Eo) as [(-> & _)|(X1 & X2 & X3 & _)]; [apply inv_still; auto|].
      apply inv_still; [exact IH|intros c _; apply grows_there, (locked_grows _ _ _ X1 X2 X3)|intros c _ _ k _; exact (lock_reads _ _ _ _ c k X2)].
    - specialize (IH (fits_tail _ _ Ft)). apply inv_still; [exact IH|intros c _; apply grows_there, (create_grows _ _ _ _ _ R Ec)|intros c _ _ k _; exact (create_reads _ _ _ _ _ _ _ R Ec)].
    - specialize (IH (fits_tail _ _ Ft)). destruct (open_indexer_in_is _ _ _ _ _ Eo) as [(-> & _)|(c2 & _ & X1 & X2 & X3 & _)]; [apply inv_still; auto|]. unfold append_lock in X1, X2, X3.
      apply inv_still; [exact IH|intros c _; apply grows_there, (locked_grows _ _ _ X1 X2 X3)|intros c _ _ k _; exact (lock_reads _ _ _ _ c k X2)].
    - specialize (IH (fits_tail _ _ Ft)). destruct IH as [A B C E F G]. cbn [fs_now under_way] in *.
      assert (Al : forall c', In c' (alive (Stopped c :: evs)) <-> In c' (alive evs) /\ cf_root c' <> cf_root c).
      { intros c'. cbn [alive]. rewrite filter_In. destruct (list_eq_dec N.eq_dec (cf_root c) (cf_root c')) as [e|n]; (split; intros [I X]; try discriminate X; try (split; [exact I|congruence])). }
      rewrite map_app in E. cbn [map fst] in E. pose proof (NoDup_remove_1 _ _ _ E) as E1. pose proof (NoDup_remove_2 _ _ _ E) as E2.
      constructor; cbn [fs_now under_way own].
      + intros c' I. apply Al in I. exact (A c' (proj1 I)).
      + intros c' I. apply Al in I. exact (B c' (proj1 I)).
      + intros c1 c2 I1 I2. apply Al in I1. apply Al in I2. exact (C c1 c2 (proj1 I1) (proj1 I2)).
      + rewrite map_app. exact E1.
      + intros c' st' I. assert (I' : In (c', st') (a ++ (c, st) :: b)) by (apply in_app_or in I; apply in_or_app; destruct I; [left|right; right]; assumption).
        destruct (F c' st' I') as [I1 X]. split; [|exact X]. apply Al. split; [exact I1|]. intros Y. apply E2. rewrite <- map_app. rewrite <- Y. apply in_map_iff. exists (c', st'). auto.
      + intros c' I Nb. apply Al in I. destruct I as [I Y]. apply (G c' I).
        unfold busy in *. cbn [under_way] in *. intros X. apply Nb. rewrite !map_app in *. apply in_app_or in X. apply in_or_app. destruct X as [X|[X|X]]; [left; exact X|cbn [fst] in X; congruence|right; exact X].
    - specialize (IH (fits_tail _ _ Ft)). destruct IH as [A B C E F G].
      assert (Al : forall c', In c' (alive (Removed c :: evs)) <-> In c' (alive evs) /\ inside (dir_at c) (dir_at c') = false).
      { intros c'. cbn [alive]. rewrite filter_In. destruct (inside (dir_at c) (dir_at c')); cbn [negb]; (split; intros [I X]; (discriminate X || (split; [exact I|reflexivity]))). }
      constructor; cbn [fs_now under_way own].
      + intros c' I. apply Al in I. exact (A c' (proj1 I)).
      + intros c' I. apply Al in I. destruct I as [I Ni]. destruct (B c' I) as [T1 T2]. destruct (B c Ic) as [Tc _]. split; unfold remove_all; [rewrite Ni; exact T1|].
        destruct (inside (dir_at c) (lock_at c')) eqn:El; [|exact T2]. exfalso. destruct (inside_lock c c' (A c' I) El) as [X|X]; [congruence|]. destruct T2 as (d & T2). congruence.
      + intros c1 c2 I1 I2. apply Al in I1. apply Al in I2. exact (C c1 c2 (proj1 I1) (proj1 I2)).
      + exact E.
      + intros c' st I. destruct (F c' st I) as [I1 X]. split; [apply Al; split; [exact I1|exact (Free c' st I)]|exact X].
      + intros c' I Nb. apply Al in I. destruct I as [I Ni]. destruct (G c' I Nb) as (dk & Hi & Ef). exists dk. split; [exact Hi|]. rewrite <- Ef. apply files_ext. intros k _.
        unfold read_at, remove_all. destruct (inside (dir_at c) (file_in c' k)) eqn:Ek; [|reflexivity]. destruct (inside_file c c' k Ek) as [X|X]; [congruence|]. rewrite <- X, (proj1 (B c Ic)). reflexivity.
    - specialize (IH (fits_tail _ _ Ft)). apply inv_still; [exact IH| |].
      + intros c I [T1 T2]. destruct (Oth c I) as (O1 & O2 & _). split; [congruence|rewrite O2; exact T2].
      + intros c I _ k Ik. unfold read_at. rewrite (proj2 (proj2 (Oth c I)) k Ik). reflexivity.
  Qed.
End Life.
