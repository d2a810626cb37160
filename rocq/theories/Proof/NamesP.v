(** The names of the files of an index. *)
From Coq Require Import String.
From Verif Require Import Model.Base Model.Path Model.Walk Model.Blotter Model.Config Model.Json Model.Index Model.Query Model.Session Model.Crash Model.Lock Model.Names.
From Verif Require Import Spec.Str Spec.Paths Spec.Tree Spec.Locking Spec.Printed Spec.Names.
From Verif Require Import Proof.Tactics Proof.PathP Proof.CleanP Proof.LockP2 Proof.RootP Proof.OutputP Proof.CrashP Proof.SessionP Spec.Configs Spec.History.
From Coq Require Import Lia.
Local Open Scope N_scope.
Local Open Scope list_scope.

(** * Clean of a path that ends in a name *)
Lemma clean_rel_loop_ends fuel : forall s st u, (List.length s <= fuel)%nat -> Forall proper st ->
  exists st' u', clean_rel_loop fuel s (rj (st ++ ups u)) (List.length (rj (ups u))) = rj (st' ++ ups u') /\ Forall proper st'
    /\ sem [] (st' ++ ups u') = fold_left walk1 (pieces s) (sem [] (st ++ ups u)).
Proof.
  induction fuel as [|k IH]; intros s st u Hf Hst;
    (assert (comps_ok (st ++ ups u)) as Hok by (apply Forall_app; split; [apply proper_ok; assumption|apply ups_ok])).
  - destruct s; [|cbn [List.length] in Hf; lia]. exists st, u. repeat split; assumption.
  - destruct s as [|c r]; [exists st, u; repeat split; assumption|].
    cbn [clean_rel_loop List.length] in *. unfold sep at 1.
    destruct (N.eqb_spec c 47) as [->|Hc].
    + cbn [pieces]. rewrite N.eqb_refl. cbn [fold_left walk1]. apply IH; [lia|assumption].
    + destruct ((c =? dot) && at_end r) eqn:E1.
      { apply andb_prop in E1. destruct E1 as [E1 E2]. apply N.eqb_eq in E1. unfold dot in E1. subst c.
        change (46 :: r) with ([46] ++ r). rewrite (fold_walk_word [46] r) by (auto; intros [|[]]; congruence).
        apply IH; [lia|assumption]. }
      destruct ((c =? dot) && match r with c2 :: r2 => (c2 =? dot) && at_end r2 | [] => false end) eqn:E2.
      { apply andb_prop in E2. destruct E2 as [E2 E3]. apply N.eqb_eq in E2. unfold dot in E2. subst c.
        destruct r as [|c2 r2]; [discriminate|]. apply andb_prop in E3. destruct E3 as [E3 E4].
        apply N.eqb_eq in E3. unfold dot in E3. subst c2. cbn [skipn List.length] in *.
        change (46 :: 46 :: r2) with ([46; 46] ++ r2). rewrite (fold_walk_word [46; 46] r2) by (auto; intros [|[|[]]]; congruence).
        destruct st as [|d st].
        - cbn [app] in *. rewrite Nat.ltb_irrefl.
          destruct (IH r2 [] (S u) ltac:(lia) ltac:(constructor)) as (st' & u' & E & Hl & Hs).
          exists st', u'. split; [|split; [exact Hl|]].
          + rewrite <- E. cbn [app]. change (ups (S u)) with ([46; 46] :: ups u). rewrite rj_cons by apply ups_ok.
            assert ((if (0 <? List.length (rj (ups u)))%nat then sep :: rj (ups u) else rj (ups u))
              = (if (List.length (rj (ups u)) =? 0)%nat then rj (ups u) else 47 :: rj (ups u))) as ->.
            { destruct (Nat.ltb_spec 0 (List.length (rj (ups u)))); destruct (Nat.eqb_spec (List.length (rj (ups u))) 0); try lia; reflexivity. }
            reflexivity.
          + rewrite Hs. cbn [app]. change (ups (S u)) with ([46; 46] :: ups u). rewrite sem_cons. reflexivity.
        - pose proof (rj_longer (d :: st) (ups u) Hok ltac:(discriminate)) as L.
          assert ((List.length (rj (ups u)) <? List.length (rj ((d :: st) ++ ups u)))%nat = true) as -> by (apply Nat.ltb_lt; exact L).
          rewrite pop_rj by exact Hok. inversion Hst as [|? ? Pd Hst']; subst.
          destruct (IH r2 st u ltac:(lia) ltac:(assumption)) as (st' & u' & E & Hl & Hs).
          exists st', u'. split; [exact E|split; [exact Hl|]]. rewrite Hs.
          change ((d :: st) ++ ups u) with (d :: (st ++ ups u)). rewrite sem_cons, (walk1_proper _ d) by assumption. reflexivity. }
      destruct (clean_copy_spec (c :: r) (if (List.length (rj (st ++ ups u)) =? 0)%nat then rj (st ++ ups u) else sep :: rj (st ++ ups u)))
        as (w & rest & E & Hw & He & Hcp).
      rewrite Hcp, E, fold_walk_word by assumption.
      assert (w <> []) as Hw0.
      { intros ->. cbn [app] in E. subst rest. cbn [at_end] in He. unfold sep in He.
        apply N.eqb_eq in He. contradiction. }
      assert (w <> [46]) as Hw1.
      { intros ->. cbn [app] in E. injection E as -> ->. rewrite He in E1. discriminate. }
      assert (w <> [46; 46]) as Hw2.
      { intros ->. cbn [app] in E. injection E as -> ->. rewrite He in E2. discriminate. }
      destruct (IH rest (w :: st) u) as (st' & u' & El & Hl & Hs).
      { apply (f_equal (@List.length N)) in E. rewrite app_length in E. cbn [List.length] in E.
        destruct w; [congruence|]. cbn [List.length] in E. lia. }
      { constructor; [repeat split|]; assumption. }
      exists st', u'. split; [|split; [exact Hl|]].
      * rewrite <- El. change ((w :: st) ++ ups u) with (w :: (st ++ ups u)). rewrite rj_cons by exact Hok. reflexivity.
      * rewrite Hs. change ((w :: st) ++ ups u) with (w :: (st ++ ups u)). rewrite sem_cons. reflexivity.
Qed.
Lemma sem_ups u : sem [] (ups u) = [].
Proof. induction u as [|u IH]; [reflexivity|]. change (ups (S u)) with ([46; 46] :: ups u). rewrite sem_cons, IH. reflexivity. Qed.

(** [pre] is a path before a name. *)
Definition before_name (pre : bytes) : Prop := pre = [] \/ exists x, pre = x ++ [47].
Lemma pieces_good n : good_name n -> pieces n = [n].
Proof. intros (_ & H & _). apply pieces_one, H. Qed.
Lemma clean_ends p n : good_name n -> before_name p -> exists pre, clean (p ++ n) = pre ++ n /\ before_name pre.
Proof.
  intros G B. pose proof G as (N0 & N1 & N2 & N3).
  assert (Ne : p ++ n <> []) by (destruct p; [exact N0|discriminate]).
  assert (P : exists l, pieces (p ++ n) = l ++ [n]).
  { destruct B as [->|(x & ->)]; [exists []; apply pieces_good, G|]. exists (pieces x). rewrite <- app_assoc. cbn [app].
    rewrite pieces_join, (pieces_good n G). reflexivity. }
  destruct P as (l & P). destruct (p ++ n) as [|c r] eqn:E; [congruence|]. unfold clean.
  destruct (is_abs (c :: r)) eqn:Ea.
  - cbn [is_abs] in Ea. apply N.eqb_eq in Ea. unfold sep in Ea. subst c. rewrite clean_rooted_spec, P, resolve_snoc by exact G.
    generalize (resolve l). intros cs. exists (slashed cs ++ [47]). split; [|right; eauto].
    assert (show_abs (cs ++ [n]) = slashed (cs ++ [n])) as -> by (destruct cs; reflexivity).
    rewrite slashed_app. cbn [slashed]. rewrite app_nil_r, <- app_assoc. reflexivity.
  - destruct (clean_rel_loop_ends (List.length (c :: r)) (c :: r) [] 0 ltac:(lia) ltac:(constructor)) as (st & u & El & Hs & Hm).
    change (rj ([] ++ ups 0)) with (@nil N) in El. change (List.length (rj (ups 0))) with 0%nat in El.
    change (sem [] ([] ++ ups 0)) with (@nil bytes) in Hm. rewrite P, fold_left_app in Hm. cbn [fold_left] in Hm. rewrite walk1_push in Hm by assumption.
    destruct st as [|d st]; [cbn [app] in Hm; rewrite sem_ups in Hm; discriminate|].
    inversion Hs as [|? ? Pd Hs']; subst. cbn [app] in *. rewrite sem_cons, walk1_proper in Hm by exact Pd. injection Hm as -> _.
    rewrite El. destruct (rj (n :: st ++ ups u)) as [|x rr] eqn:Ej.
    { exfalso. apply N0. cbn [rj] in Ej. apply app_eq_nil in Ej. destruct Ej as [Ej _]. apply (f_equal (@rev N)) in Ej. rewrite rev_involutive in Ej. exact Ej. }
    rewrite <- Ej. cbn [rj]. rewrite rev_app_distr, rev_involutive. eexists. split; [reflexivity|].
    destruct (st ++ ups u) as [|e es]; [left; reflexivity|]. right. cbn [rev]. eauto.
Qed.
Lemma join_ends root n : good_name n -> exists pre, join_path root n = pre ++ n /\ before_name pre.
Proof.
  intros G. unfold join_path. destruct root as [|c r].
  - apply (clean_ends [] n G). left. reflexivity.
  - destruct (clean_ends ((c :: r) ++ [47]) n G ltac:(right; eauto)) as (pre & E & B). exists pre. split; [|exact B].
    rewrite <- E. rewrite <- app_assoc. reflexivity.
Qed.
Lemma join_longer cwd root n t : good_name n -> good_name (n ++ t) -> spec_abs cwd (join_path root n ++ t) = spec_abs cwd root ++ [n ++ t].
Proof.
  intros G G'. pose proof (join_path_spec cwd root n G) as J. destruct (join_ends root n G) as (pre & E & B). rewrite E in *. rewrite <- app_assoc.
  destruct (spec_abs_last cwd pre B) as (dir & _ & D). rewrite (D n) in J by (exact G || apply G). rewrite (D (n ++ t)) by (exact G' || apply G').
  apply app_inj_tail in J. destruct J as [-> _]. reflexivity.
Qed.

(** * The files *)
Lemma digits_named i : N.of_nat i < 2 ^ 63 -> numeral Printed.decimal (digits 20 (N.of_nat i)) (N.of_nat i).
Proof. intros L. apply digits_numeral; [|lia]. eapply N.lt_trans; [exact L|reflexivity]. Qed.
Lemma digits_no_slash fuel : forall n, ~ In 47 (digits fuel n).
Proof.
  induction fuel as [|k IH]; intros n; cbn [digits]; [intros []|]. destruct (N.ltb_spec n 10).
  - intros [E|[]]. lia.
  - intros I. apply in_app_or in I. destruct I as [I|[E|[]]]; [exact (IH _ I)|]. pose proof (N.mod_lt n 10). lia.
Qed.
Lemma long_good n : ~ In 47 n -> (2 < List.length n)%nat -> good_name n.
Proof. intros H L. repeat split; [intros ->|exact H|intros ->|intros ->]; cbn in L; lia. Qed.
Lemma good_posts s : ~ In 47 s -> good_name (bs "b" ++ s ++ bs ".pos") /\ good_name ((bs "b" ++ s ++ bs ".pos") ++ bs ".iix").
Proof.
  intros H.
  assert (A : ~ In 47 (bs "b" ++ s ++ bs ".pos")).
  { intros I. apply in_app_or in I. destruct I as [I|I]; [vm_compute in I; intuition discriminate|]. apply in_app_or in I. destruct I as [I|I]; [exact (H I)|]. vm_compute in I. intuition discriminate. }
  split; apply long_good.
  - exact A.
  - rewrite !app_length. cbn. lia.
  - intros I. apply in_app_or in I. destruct I as [I|I]; [exact (A I)|]. vm_compute in I. intuition discriminate.
  - rewrite !app_length. cbn. lia.
Qed.
Theorem file_at_places root k : exists nm a c, nm = a ++ [c] /\ c <> 107 /\ (int_number k -> named k nm) /\ forall cwd, spec_abs cwd (path_of root k) = spec_abs cwd root ++ [nm].
Proof.
  destruct k as [| | |i|i]; cbn [path_of int_number].
  - exists (bs "cfg.json"), (bs "cfg.jso"), 110. split; [reflexivity|]. split; [discriminate|]. split; [constructor|].
    intros cwd. apply join_path_spec, long_good; [vm_compute; intuition discriminate|cbn; lia].
  - exists (bs "dmd"), (bs "dm"), 100. split; [reflexivity|]. split; [discriminate|]. split; [constructor|].
    intros cwd. apply join_path_spec, long_good; [vm_compute; intuition discriminate|cbn; lia].
  - exists (bs "files.fnm"), (bs "files.fn"), 109. split; [reflexivity|]. split; [discriminate|]. split; [constructor|].
    intros cwd. apply join_path_spec, long_good; [vm_compute; intuition discriminate|cbn; lia].
  - exists (bs "b" ++ digits 20 (N.of_nat i) ++ bs ".pos"), (bs "b" ++ digits 20 (N.of_nat i) ++ bs ".po"), 115.
    split; [rewrite <- !app_assoc; reflexivity|]. split; [discriminate|]. split; [intros L; constructor; apply digits_named, L|].
    intros cwd. apply join_path_spec. apply (good_posts _ (digits_no_slash 20 (N.of_nat i))).
  - exists (bs "b" ++ digits 20 (N.of_nat i) ++ bs ".pos.iix"), (bs "b" ++ digits 20 (N.of_nat i) ++ bs ".pos.ii"), 120.
    split; [rewrite <- !app_assoc; reflexivity|]. split; [discriminate|]. split; [intros L; constructor; apply digits_named, L|].
    destruct (good_posts _ (digits_no_slash 20 (N.of_nat i))) as [A B]. intros cwd. rewrite join_longer by assumption. rewrite <- !app_assoc. reflexivity.
Qed.
Theorem file_at_place cwd root k : exists nm a c, nm = a ++ [c] /\ c <> 107 /\ (int_number k -> named k nm) /\ spec_abs cwd (path_of root k) = spec_abs cwd root ++ [nm].
Proof. destruct (file_at_places root k) as (nm & a & c & A & B & C & D). exists nm, a, c. auto. Qed.
Theorem file_place cwd root k : int_number k -> exists nm, named k nm /\ spec_abs cwd (path_of root k) = spec_abs cwd root ++ [nm].
Proof. intros L. destruct (file_at_place cwd root k) as (nm & a & c & _ & _ & N & E). exists nm. split; [exact (N L)|exact E]. Qed.

Lemma named_inj k k' nm : named k nm -> named k' nm -> k = k'.
Proof.
  intros A B. inversion A as [E1 E2|E1 E2|E1 E2|i s Hi E1 E2|i s Hi E1 E2]; inversion B as [F1 F2|F1 F2|F1 F2|j t Hj F1 F2|j t Hj F1 F2]; subst; try reflexivity; try discriminate.
  - apply app_inv_head in F2. apply app_inv_tail in F2. subst t. pose proof (numeral_value _ decimal_nodup _ _ Hi _ Hj). f_equal. lia.
  - exfalso. change (bs ".pos.iix") with (bs ".pos.ii" ++ bs "x") in F2. change (bs ".pos") with (bs ".po" ++ bs "s") in F2. rewrite !app_assoc in F2. apply app_inj_tail in F2. destruct F2. discriminate.
  - exfalso. change (bs ".pos.iix") with (bs ".pos.ii" ++ bs "x") in F2. change (bs ".pos") with (bs ".po" ++ bs "s") in F2. rewrite !app_assoc in F2. apply app_inj_tail in F2. destruct F2. discriminate.
  - apply app_inv_head in F2. apply app_inv_tail in F2. subst t. pose proof (numeral_value _ decimal_nodup _ _ Hi _ Hj). f_equal. lia.
Qed.
Theorem files_apart cwd root root' k k' : int_number k -> int_number k' -> spec_abs cwd (path_of root k) = spec_abs cwd (path_of root' k') ->
  k = k' /\ spec_abs cwd root = spec_abs cwd root'.
Proof.
  intros L L' E. destruct (file_place cwd root k L) as (nm & N & P), (file_place cwd root' k' L') as (nm' & N' & P').
  rewrite P, P' in E. apply app_inj_tail in E. destruct E as [E ->]. split; [exact (named_inj _ _ _ N N')|exact E].
Qed.

(** * The lock file *)
Lemma name_at_end p : exists pre w, p = pre ++ w /\ before_name pre /\ ~ In 47 w.
Proof.
  induction p as [|c p IH]; [exists [], []; repeat split; [left; reflexivity|intros []]|].
  destruct IH as (pre & w & -> & B & Nw). destruct B as [->|(x & ->)].
  - destruct (N.eq_dec c 47) as [->|Hc].
    + exists [47], w. repeat split; [right; exists []; reflexivity|exact Nw].
    + exists [], (c :: w). repeat split; [left; reflexivity|]. intros [H|H]; [congruence|exact (Nw H)].
  - exists (c :: x ++ [47]), w. repeat split; [right; exists (c :: x); reflexivity|exact Nw].
Qed.
Lemma lock_good w : ~ In 47 w -> good_name (w ++ dot_lock).
Proof.
  intros H. apply long_good; [|rewrite app_length; cbn; lia]. intros I. apply in_app_or in I. destruct I as [I|I]; [exact (H I)|].
  vm_compute in I. intuition discriminate.
Qed.
Lemma lock_place cwd root : exists dir w, spec_abs cwd (lock_path root) = dir ++ [w ++ dot_lock].
Proof.
  destruct (name_at_end root) as (pre & w & -> & B & Nw). destruct (spec_abs_last cwd pre B) as (dir & _ & D). exists dir, w.
  unfold lock_path. rewrite <- app_assoc. apply D; apply (lock_good w Nw).
Qed.
Theorem lock_apart cwd root root' k : spec_abs cwd (lock_path root) <> spec_abs cwd (path_of root' k).
Proof.
  intros E. destruct (lock_place cwd root) as (dir & w & P). destruct (file_at_place cwd root' k) as (nm & a & c & En & Nc & _ & P').
  rewrite P, P' in E. apply app_inj_tail in E. destruct E as [_ E]. rewrite En in E. change dot_lock with (bs ".loc" ++ [107]) in E. rewrite app_assoc in E.
  apply app_inj_tail in E. destruct E as [_ E]. congruence.
Qed.

(** * Opening and creating *)
Lemma put_same p x fs : put_node p x fs p = Some x.
Proof. unfold put_node, same_place. destruct (list_eq_dec _ p p); congruence. Qed.
Lemma put_other p x fs q : p <> q -> put_node p x fs q = fs q.
Proof. intros H. unfold put_node, same_place. destruct (list_eq_dec _ p q); congruence. Qed.
Lemma lock_file_inv fs p fs' : lock_file fs p = Some fs' -> fs' p = Some (File []) /\ (forall q, q <> p -> fs' q = fs q) /\ fs p <> Some Directory.
Proof.
  unfold lock_file. destruct (fs p) as [[d|]|] eqn:E; [|discriminate|destruct (has_parent fs p); [|discriminate]]; intros H; injection H as <-;
    (split; [apply put_same|]; split; [intros q Hq; apply put_other; congruence|discriminate]).
Qed.
Lemma files_frame n fs fs' cwd root root' : (forall q, q <> spec_abs cwd (lock_path root) -> fs' q = fs q) ->
  files_at n fs' cwd root' = files_at n fs cwd root'.
Proof.
  intros F. assert (A : forall k, read_at fs' (spec_abs cwd (path_of root' k)) = read_at fs (spec_abs cwd (path_of root' k))).
  { intros k. unfold read_at. rewrite F; [reflexivity|]. intros E. exact (lock_apart cwd root root' k (eq_sym E)). }
  unfold files_at. cbv zeta. rewrite !A. apply f_equal. apply map_ext. intros i. rewrite !A. reflexivity.
Qed.
Lemma shards_frame fs fs' cwd root root' : (forall q, q <> spec_abs cwd (lock_path root) -> fs' q = fs q) ->
  shards_at_root fs' cwd root' = shards_at_root fs cwd root'.
Proof.
  intros F. unfold shards_at_root, read_at. rewrite F; [reflexivity|]. intros E. exact (lock_apart cwd root root' FConfig (eq_sym E)).
Qed.
Lemma open_files_ext sorted d d' root : (forall r, d r = d' r) -> open_files sorted d root = open_files sorted d' root.
Proof.
  intros H. unfold open_files. rewrite <- (H root). destruct (Json.read_config (w_cfg (d root))) as [c|e| |]; cbn [bind]; [|reflexivity..].
  rewrite <- (H (cf_root c)). reflexivity.
Qed.
Lemma open_indexer_files_ext d d' root : (forall r, d r = d' r) -> open_indexer_files d root = open_indexer_files d' root.
Proof.
  intros H. unfold open_indexer_files. rewrite <- (H root). destruct (Json.read_config (w_cfg (d root))) as [c|e| |]; cbn [bind]; [|reflexivity..].
  rewrite <- (H (cf_root c)). reflexivity.
Qed.
(** Nothing but the lock file changes, and the lock file does not matter. *)
Theorem open_index_in_is sorted fs cwd root fs' r : open_index_in sorted fs cwd root = (fs', r) ->
  let lk := spec_abs cwd (lock_path root) in let dir := path_abs cwd root in
  (fs' = fs /\ r = Err EOther /\ lock_file fs lk = None) \/
  (fs' lk = Some (File []) /\ (forall q, q <> lk -> fs' q = fs q) /\ fs lk <> Some Directory /\
   r = open_files sorted (files_at (shards_at_root fs cwd dir) fs cwd) dir).
Proof.
  unfold open_index_in, open_lock. intros H. cbv zeta. destruct (lock_file fs (spec_abs cwd (lock_path root))) as [fs1|] eqn:E; injection H as <- <-.
  - right. destruct (lock_file_inv _ _ _ E) as (A & B & C). split; [exact A|]. split; [exact B|]. split; [exact C|].
    rewrite (shards_frame fs fs1 cwd root _ B). apply open_files_ext. intros q. exact (files_frame _ _ _ _ _ _ B).
  - left. repeat split. 
Qed.
Theorem open_indexer_in_is fs cwd root fs' r : open_indexer_in fs cwd root = (fs', r) ->
  let dir := path_abs cwd root in let old := files_at (shards_at_root fs cwd dir) fs cwd in
  (fs' = fs /\ ~ (exists x, r = Ok x)) \/
  exists c, Json.read_config (w_cfg (old dir)) = Ok c /\
  let lk := spec_abs cwd (append_lock c) in
  fs' lk = Some (File []) /\ (forall q, q <> lk -> fs' q = fs q) /\ fs lk <> Some Directory /\ r = open_indexer_files old dir.
Proof.
  unfold open_indexer_in, append_lock. cbv zeta. intros H.
  change (Json.read_config (w_cfg (files_at (shards_at_root fs cwd (path_abs cwd root)) fs cwd (path_abs cwd root)))) with
    (Json.read_config (read_at fs (spec_abs cwd (path_of (path_abs cwd root) FConfig)))).
  destruct (Json.read_config _) as [c|e| |] eqn:Ec; try (injection H as <- <-; left; split; [reflexivity|intros (x & X); discriminate X]).
  destruct (lock_file fs (spec_abs cwd (lock_path (cf_root c)))) as [fs1|] eqn:E; injection H as <- <-.
  - right. exists c. split; [reflexivity|]. destruct (lock_file_inv _ _ _ E) as (A & B & C). split; [exact A|]. split; [exact B|]. split; [exact C|].
    rewrite (shards_frame fs fs1 cwd _ _ B). apply open_indexer_files_ext. intros q. exact (files_frame _ _ _ _ _ _ B).
  - left. split; [reflexivity|]. intros (x & X). discriminate X.
Qed.
Lemma abs_again cwd root : rooted cwd -> spec_abs cwd (path_abs cwd root) = spec_abs cwd root.
Proof.
  intros R. rewrite path_abs_spec by exact R. pose proof (spec_abs_plain cwd root) as P. revert P. generalize (spec_abs cwd root). intros cs P. destruct cs as [|d cs]; [reflexivity|].
  unfold show_abs. rewrite abs_of_slash by (cbn [slashed]; eauto). rewrite pieces_slashed by apply plain_comps, P. apply resolve_self, P.
Qed.
Lemma lock_not_dir cwd root : rooted cwd -> spec_abs cwd (create_lock cwd root) <> spec_abs cwd root.
Proof.
  intros R. destruct (list_eq_dec (list_eq_dec N.eq_dec) (spec_abs cwd root) []) as [E|E].
  - rewrite E. unfold create_lock. destruct (lock_place cwd (path_abs cwd root)) as (dir & w & ->). destruct dir; discriminate.
  - pose proof (lock_outside cwd root [] R E) as H. rewrite app_nil_r in H. exact H.
Qed.
Theorem create_in_is fs cwd root fs' r : rooted cwd -> create_in fs cwd root = (fs', r) ->
  let lk := spec_abs cwd (create_lock cwd root) in let dir := spec_abs cwd root in
  (fs' = fs /\ r = Err EOther /\ lock_file fs lk = None) \/
  (fs' lk = Some (File []) /\ (forall q, q <> lk -> q <> dir -> fs' q = fs q) /\ fs lk <> Some Directory /\
   (r = Ok tt /\ fs dir = None /\ fs' dir = Some Directory \/ r = Err EOther /\ fs' dir = fs dir)).
Proof.
  intros R. unfold create_in. cbv zeta. rewrite (abs_again cwd root R). pose proof (lock_not_dir cwd root R) as Nd.
  set (lk := spec_abs cwd (create_lock cwd root)) in *. set (dir := spec_abs cwd root) in *. intros H.
  destruct (lock_file fs lk) as [fs1|] eqn:E; [|injection H as <- <-; left; repeat split].
  destruct (lock_file_inv _ _ _ E) as (A & B & C). right. destruct (make_dir fs1 dir) as [fs2|] eqn:Em; injection H as <- <-.
  - unfold make_dir in Em. destruct (fs1 dir) as [x|] eqn:Ef; [discriminate|]. destruct (has_parent fs1 dir); [|discriminate]. injection Em as <-.
    split; [rewrite put_other by congruence; exact A|]. split; [intros q Q1 Q2; rewrite put_other by congruence; apply B, Q1|]. split; [exact C|].
    left. split; [reflexivity|]. split; [rewrite <- Ef; symmetry; apply B; congruence|apply put_same].
  - split; [exact A|]. split; [intros q Q1 _; apply B, Q1|]. split; [exact C|]. right. split; [reflexivity|]. apply B. congruence.
Qed.
Lemma make_dir_there fs p x : fs p = Some x -> make_dir fs p = None.
Proof. intros E. unfold make_dir. rewrite E. reflexivity. Qed.
(** Where the lock file of [root] is there can be no index. *)
Theorem create_on_lock fs cwd root fs' : rooted cwd -> fs (spec_abs cwd root) <> None -> snd (create_in fs cwd root) = Err EOther /\ (fs' = fst (create_in fs cwd root) -> fs' (spec_abs cwd root) = fs (spec_abs cwd root)).
Proof.
  intros R N. destruct (create_in fs cwd root) as [f r] eqn:E. cbn [fst snd].
  destruct (create_in_is fs cwd root f r R E) as [(-> & -> & _)|(_ & _ & _ & [(_ & X & _)|[-> X]])]; [split; [reflexivity|intros ->; reflexivity]|contradiction|].
  split; [reflexivity|intros ->; exact X].
Qed.

(** * A file system that has given files *)
(** All other places but [out] are directories. *)
Definition fs_with (cwd root : bytes) (fl : files) (out : list bytes) : fsys := fun q =>
  match find (fun k => same_place (spec_abs cwd (path_of root k)) q) (kinds (List.length (w_shards fl))) with
  | Some k => option_map File (content_at fl k)
  | None => if same_place out q then None else Some Directory
  end.
Lemma same_place_iff p q : same_place p q = true <-> p = q.
Proof. unfold same_place. destruct (list_eq_dec _ p q); split; congruence. Qed.
Lemma small_kinds n k : N.of_nat n < 2 ^ 63 -> In k (kinds n) -> int_number k.
Proof.
  intros L I. unfold kinds in I. cbn [app In] in I. change (2 ^ 63) with 9223372036854775808 in *.
  destruct I as [<-|[<-|[<-|I]]]; [exact Logic.I..|]. apply in_app_or in I. destruct I as [I|I]; apply in_map_iff in I; destruct I as (i & <- & I); apply in_seq in I; cbn [int_number]; change (2 ^ 63) with 9223372036854775808; lia.
Qed.
Lemma fs_with_at cwd root fl out k : N.of_nat (List.length (w_shards fl)) < 2 ^ 63 -> In k (kinds (List.length (w_shards fl))) ->
  read_at (fs_with cwd root fl out) (spec_abs cwd (path_of root k)) = content_at fl k.
Proof.
  intros L I. unfold read_at, fs_with.
  destruct (find (fun k0 => same_place (spec_abs cwd (path_of root k0)) (spec_abs cwd (path_of root k))) (kinds (List.length (w_shards fl)))) as [k'|] eqn:E.
  - apply find_some in E. destruct E as [I' E]. apply same_place_iff in E.
    apply files_apart in E; [|exact (small_kinds _ _ L I')|exact (small_kinds _ _ L I)]. destruct E as [-> _]. destruct (content_at fl k); reflexivity.
  - exfalso. pose proof (find_none _ _ E k I) as X. cbv beta in X. assert (same_place (spec_abs cwd (path_of root k)) (spec_abs cwd (path_of root k)) = true) by (apply same_place_iff; reflexivity). congruence.
Qed.
Lemma map_seq_nth {A} (d : A) l : map (fun i => nth i l d) (seq 0 (List.length l)) = l.
Proof.
  induction l as [|x l IH]; [reflexivity|]. cbn [List.length seq map nth]. apply f_equal. rewrite <- seq_shift, map_map. exact IH.
Qed.
Lemma create_lock_place cwd root : rooted cwd -> exists d e w, spec_abs cwd (create_lock cwd root) = d ++ [w] /\ spec_abs cwd root = d ++ e.
Proof.
  intros R. unfold create_lock, lock_path. rewrite path_abs_spec by exact R.
  destruct (list_eq_dec (list_eq_dec N.eq_dec) (spec_abs cwd root) []) as [E|Ne].
  - rewrite E. exists [], [], dot_lock. split; reflexivity.
  - destruct (exists_last Ne) as (dir & name & E). rewrite E. pose proof (spec_abs_plain cwd root) as P. rewrite E in P.
    apply Forall_app in P. destruct P as [Pd Pn]. inversion Pn as [|? ? Pn1 _]; subst. pose proof (plain_lock name Pn1) as Pn'.
    exists dir, [name], (name ++ dot_lock). split; [|reflexivity].
    rewrite show_snoc, slashed_snoc.
    assert (Fp : Forall plain_name (dir ++ [name ++ dot_lock])) by (apply Forall_app; split; [exact Pd|repeat constructor; apply Pn']).
    assert (Sl : exists r, slashed (dir ++ [name ++ dot_lock]) = 47 :: r) by (destruct dir; cbn [app slashed]; eauto).
    rewrite abs_of_slash by exact Sl. rewrite pieces_slashed by apply plain_comps, Fp. apply resolve_self, Fp.
Qed.
Theorem files_realized cwd root fl : rooted cwd -> N.of_nat (List.length (w_shards fl)) < 2 ^ 63 -> exists fs,
  files_at (List.length (w_shards fl)) fs cwd root = fl /\ lock_file fs (spec_abs cwd (create_lock cwd root)) <> None.
Proof.
  intros R L. set (lk := spec_abs cwd (create_lock cwd root)). exists (fs_with cwd root fl lk). split.
  - unfold files_at. cbv zeta. rewrite !fs_with_at by (exact L || (cbn; auto)). destruct fl as [cf dm nm sh]. cbn [content_at w_cfg w_dmd w_fnames w_shards] in *. apply f_equal.
    transitivity (map (fun i => nth i sh (None, None)) (seq 0 (List.length sh))); [|apply map_seq_nth]. apply map_ext_in. intros i I.
    rewrite (fs_with_at cwd root (MkFiles cf dm nm sh) _ (FTable i)), (fs_with_at cwd root (MkFiles cf dm nm sh) _ (FPosts i)); cbn [w_shards]; [|exact L| |exact L|].
    + cbn [content_at w_shards]. symmetry. apply surjective_pairing.
    + unfold kinds. apply in_or_app. right. apply in_or_app. right. apply in_map, I.
    + unfold kinds. apply in_or_app. right. apply in_or_app. left. apply in_map, I.
  - destruct (create_lock_place cwd root R) as (d & e & w & P & Pr). fold lk in P.
    assert (Out : forall q x, (forall k, spec_abs cwd (path_of root k) <> q) -> (if same_place lk q then None else Some Directory) = x -> fs_with cwd root fl lk q = x).
    { intros q x Nq X. unfold fs_with. destruct (find _ _) as [k|] eqn:E; [|exact X].
      apply find_some in E. destruct E as [_ E]. apply same_place_iff in E. contradiction (Nq k E). }
    assert (X : fs_with cwd root fl lk lk = None).
    { apply Out; [intros k E; exact (lock_apart cwd _ root k (eq_sym E))|]. destruct (same_place lk lk) eqn:S; [reflexivity|]. assert (same_place lk lk = true) by (apply same_place_iff; reflexivity). congruence. }
    assert (Y : fs_with cwd root fl lk (removelast lk) = Some Directory).
    { assert (removelast lk = d) as -> by (rewrite P; apply removelast_last). apply Out.
      - intros k E. destruct (file_at_place cwd root k) as (nm & a & c & _ & _ & _ & Pk). rewrite Pk, Pr in E. apply (f_equal (@List.length bytes)) in E. rewrite !app_length in E. cbn in E. lia.
      - destruct (same_place lk d) eqn:S; [|reflexivity]. apply same_place_iff in S. rewrite P in S. apply (f_equal (@List.length bytes)) in S. rewrite app_length in S. cbn in S. lia. }
    unfold lock_file. rewrite X. unfold has_parent. destruct lk as [|c0 l0] eqn:El; [destruct d; discriminate P|]. rewrite Y. discriminate.
Qed.
(** Opening the files of a finished session by their paths. *)
Theorem opens_by_paths u c k m n : cfg_full c k m n -> cfg_values c -> forall sorted ss dk, history u c ss dk -> List.length (k_shards dk) = n ->
  forall cwd root fs, rooted cwd -> path_abs cwd root = cf_root c -> files_at n fs cwd (cf_root c) = files_of dk ->
  (lock_file fs (spec_abs cwd (open_lock root)) <> None -> snd (open_index_in sorted fs cwd root) = open_index sorted dk) /\
  (lock_file fs (spec_abs cwd (append_lock c)) <> None -> snd (open_indexer_in fs cwd root) = open_indexer dk).
Proof.
  intros F V sorted ss dk Hi Ln cwd root fs R Er Ef. pose proof (history_cfg u c ss dk Hi) as Kc.
  assert (Ec : Json.read_config (read_at fs (spec_abs cwd (path_of (cf_root c) FConfig))) = Ok c).
  { change (read_at fs (spec_abs cwd (path_of (cf_root c) FConfig))) with (w_cfg (files_at n fs cwd (cf_root c))). rewrite Ef. cbn [files_of w_cfg]. rewrite Kc. cbn [option_map].
    exact (cfg_back c k m n F V). }
  assert (Es : shards_at_root fs cwd (cf_root c) = n).
  { unfold shards_at_root. rewrite Ec. rewrite (co_shards _ _ _ _ (cu_ok _ _ _ _ F)). apply Nat2Z.id. }
  pose proof (fun d Ed => open_files_of c k m n F V sorted d dk Ed Kc) as Of.
  split; intros Lk.
  - destruct (open_index_in sorted fs cwd root) as [fs' r] eqn:E. destruct (open_index_in_is sorted fs cwd root fs' r E) as [(_ & _ & X)|(_ & _ & _ & ->)]; [contradiction (Lk X)|].
    cbn [snd]. rewrite Er, Es. apply Of. exact Ef.
  - unfold open_indexer_in. rewrite Er, Ec. destruct (lock_file fs (spec_abs cwd (append_lock c))) as [fs1|] eqn:El; [|contradiction (Lk eq_refl)].
    destruct (lock_file_inv _ _ _ El) as (_ & B & _). cbn [snd]. rewrite (shards_frame fs fs1 cwd _ _ B), Es. apply Of. rewrite (files_frame n _ _ _ _ _ B). exact Ef.
Qed.
