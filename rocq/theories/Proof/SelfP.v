(** An index among the files that are indexed. *)
From Coq Require Import String.
From Verif Require Import Model.Base Model.Path Model.Config Model.Index Model.Walk Model.Shard Model.Crash Model.Lock Model.Names Model.Self.
From Verif Require Import Spec.Str Spec.Paths Spec.Locking Spec.Tree Spec.Names Spec.Self.
From Verif Require Import Proof.Tactics Proof.PathP Proof.CleanP Proof.LockP2 Proof.RootP Proof.WalkP Proof.NamesP.
From Coq Require Import Lia.
Local Open Scope N_scope.
Local Open Scope list_scope.

(** * Finding *)
Lemma found_at fs : parents fs -> forall cs p t dat, found fs p t -> fs (p ++ cs) = Some (File dat) -> exists dat', file_at t cs (Reads dat').
Proof.
  intros Pa. induction cs as [|nm cs IH]; intros p t dat F E.
  - rewrite app_nil_r in E. destruct F as [p dat1 dat' Ep|p es Ep Fe]; [|congruence]. exists dat1. constructor.
  - assert (X : fs (p ++ [nm]) <> None).
    { destruct cs as [|nm' cs]; [congruence|]. clear IH. replace (p ++ nm :: nm' :: cs) with ((p ++ [nm]) ++ nm' :: cs) in E by (rewrite <- app_assoc; reflexivity).
      assert (Y : forall ds q, fs (q ++ ds) <> None -> fs q <> None).
      { clear -Pa. induction ds as [|x ds IH] using rev_ind; intros q H; [rewrite app_nil_r in H; exact H|]. apply IH. rewrite app_assoc in H. rewrite (Pa _ _ H). discriminate. }
      apply (Y (nm' :: cs)). congruence. }
    destruct F as [p dat1 dat' Ep|p es Ep Fe]; [rewrite (Pa _ _ X) in Ep; discriminate|]. destruct (Fe nm X) as (t & It & Ft).
    destruct (IH (p ++ [nm]) t dat Ft) as (dat' & A); [rewrite <- app_assoc; exact E|]. exists dat'. econstructor; eassumption.
Qed.
Lemma walked_at fixed fs cwd lstat paths docs p cs dat : parents fs -> finds fs cwd paths lstat ->
  do_paths (fun _ => true) fixed lstat paths (false, []) = (false, docs) -> In p paths -> fs (spec_abs cwd p ++ cs) = Some (File dat) -> visible cs ->
  has_document cwd docs (spec_abs cwd p ++ cs).
Proof.
  intros Pa (G & Fi) E Ip Ed V.
  destruct (proj2 (proj2 (do_paths_complete (fun _ => true) fixed cwd lstat paths (false, []) docs G (fun _ => eq_refl) (fun q t I L => conj (proj1 (Fi q t I L)) (proj1 (proj2 (Fi q t I L)))) E)) p Ip)
    as (t & El & _ & A).
  destruct (Fi p t Ip El) as (_ & _ & Ft). destruct (found_at fs Pa cs _ t dat Ft Ed) as (dat' & At).
  destruct (A cs _ V At) as (d & ? & _ & Id & Dd & _). exists d. split; [exact Id|exact Dd].
Qed.

(** * Places *)
Lemma lock_beside cwd root dir name : rooted cwd -> spec_abs cwd root = dir ++ [name] -> spec_abs cwd (create_lock cwd root) = dir ++ [name ++ dot_lock].
Proof.
  intros R E. unfold create_lock, lock_path. rewrite path_abs_spec by exact R. rewrite E. pose proof (spec_abs_plain cwd root) as P. rewrite E in P.
  apply Forall_app in P. destruct P as [Pd Pn]. inversion Pn as [|? ? Pn1 _]; subst. pose proof (plain_lock name Pn1) as Pn'.
  rewrite show_snoc, slashed_snoc.
  assert (Fp : Forall plain_name (dir ++ [name ++ dot_lock])) by (apply Forall_app; split; [exact Pd|repeat constructor; apply Pn']).
  assert (Sl : exists r, slashed (dir ++ [name ++ dot_lock]) = 47 :: r) by (destruct dir; cbn [app slashed]; eauto).
  rewrite abs_of_slash by exact Sl. rewrite pieces_slashed by apply plain_comps, Fp. apply resolve_self, Fp.
Qed.
Lemma named_visible k nm : named k nm -> ~ dot_name nm.
Proof. intros N (c & r & ->). inversion N. Qed.
Lemma lock_visible name : name <> [] -> ~ dot_name name -> ~ dot_name (name ++ dot_lock) \/ name = [46].
Proof.
  intros Ne H. destruct name as [|a [|b r]]; [congruence| |].
  - destruct (N.eq_dec a 46) as [->|Na]; [right; reflexivity|]. left. intros (c & r & E). injection E as E _. congruence.
  - left. intros (c & r' & E). injection E as E _ _. apply H. exists b, r. rewrite E. reflexivity.
Qed.

Lemma place_same cwd root root' k : spec_abs cwd root = spec_abs cwd root' -> spec_abs cwd (path_of root k) = spec_abs cwd (path_of root' k).
Proof.
  intros E. destruct k as [| | |i|i]; cbn [path_of].
  1-3: rewrite !join_path_spec, E by (apply long_good; [vm_compute; intuition discriminate|cbn; lia]); reflexivity.
  all: destruct (good_posts _ (digits_no_slash 20 (N.of_nat i))) as [A B].
  - rewrite !join_path_spec, E by exact A. reflexivity.
  - rewrite !join_longer, E by assumption. reflexivity.
Qed.

(** * Making an index *)
Lemma parents_put fs p nm x : parents fs -> fs p = Some Directory -> fs (p ++ [nm]) <> Some Directory -> parents (put_node (p ++ [nm]) x fs).
Proof.
  intros Pa Dp Nd q c H. destruct (list_eq_dec (list_eq_dec N.eq_dec) (p ++ [nm]) (q ++ [c])) as [E|E].
  - apply app_inj_tail in E. destruct E as [<- <-]. rewrite put_other; [exact Dp|]. intros X. apply (f_equal (@List.length _)) in X. rewrite app_length in X. cbn in X. lia.
  - rewrite put_other in H by exact E. pose proof (Pa q c H) as D. rewrite put_other; [exact D|]. intros <-. contradiction.
Qed.
Definition fresh (R : list bytes) (fs : fsys) : Prop := parents fs /\ fs R = Some Directory /\ forall nm, fs (R ++ [nm]) <> Some Directory.
Lemma fresh_put R fs nm dat : fresh R fs -> fresh R (put_node (R ++ [nm]) (File dat) fs).
Proof.
  intros (Pa & D & Nd). split; [apply parents_put; auto|]. split.
  - rewrite put_other; [exact D|]. intros X. apply (f_equal (@List.length _)) in X. rewrite app_length in X. cbn in X. lia.
  - intros nm'. destruct (list_eq_dec N.eq_dec nm nm') as [<-|Ne]; [rewrite put_same; discriminate|]. rewrite put_other; [apply Nd|]. intros X. apply app_inj_tail in X. destruct X. contradiction.
Qed.
Lemma files_kept p dat fs q : (exists d, fs q = Some (File d)) -> exists d, put_node p (File dat) fs q = Some (File d).
Proof.
  intros (d & E). unfold put_node. destruct (same_place p q); eauto.
Qed.
Lemma put_shards_in cwd root R : spec_abs cwd root = R -> forall n s fs, fresh R fs ->
  let fs' := fold_left (fun fs i => put_node (spec_abs cwd (path_of root (FPosts i))) (File [])
                           (put_node (spec_abs cwd (path_of root (FTable i))) (File iix_created) fs)) (seq s n) fs in
  N.of_nat (s + n) < 2 ^ 63 ->
  fresh R fs' /\ (forall q d, fs q = Some (File d) -> exists d', fs' q = Some (File d')) /\
  forall i, (s <= i < s + n)%nat -> (exists d, fs' (spec_abs cwd (path_of root (FPosts i))) = Some (File d)) /\ exists d, fs' (spec_abs cwd (path_of root (FTable i))) = Some (File d).
Proof.
  intros ER. change (2 ^ 63) with 9223372036854775808. generalize iix_created. intros tb. induction n as [|n IH]; intros s fs Fr; cbv zeta; intros L.
  - cbn [seq fold_left]. split; [exact Fr|]. split; [eauto|]. intros i Hi. lia.
  - cbn [seq fold_left].
    destruct (file_place cwd root (FPosts s)) as (np & _ & Ep); [cbn [int_number]; change (2 ^ 63) with 9223372036854775808; lia|].
    destruct (file_place cwd root (FTable s)) as (nt & _ & Et); [cbn [int_number]; change (2 ^ 63) with 9223372036854775808; lia|].
    set (fs1 := put_node (spec_abs cwd (path_of root (FPosts s))) (File []) (put_node (spec_abs cwd (path_of root (FTable s))) (File tb) fs)).
    assert (Fr1 : fresh R fs1). { unfold fs1.  rewrite Ep, Et, ER. apply fresh_put, fresh_put, Fr. }
    assert (L' : N.of_nat (S s + n) < 9223372036854775808) by lia.
    destruct (IH (S s) fs1 Fr1 L') as (A & B & C). split; [exact A|]. split.
    + intros q d Eq. assert (X : exists d, fs1 q = Some (File d)) by (unfold fs1; do 2 apply files_kept; eauto). destruct X as (d1 & X). exact (B q d1 X).
    + intros i Hi. destruct (Nat.eq_dec i s) as [->|Ne]; [|apply C; lia].
      assert (X : exists d, fs1 (spec_abs cwd (path_of root (FPosts s))) = Some (File d)) by (exists []; unfold fs1; apply put_same).
      assert (Y : exists d, fs1 (spec_abs cwd (path_of root (FTable s))) = Some (File d)) by (unfold fs1; apply files_kept; exists tb; apply put_same).
      destruct X as (d1 & X), Y as (d2 & Y). split; [exact (B _ d1 X)|exact (B _ d2 Y)].
Qed.
Lemma lock_parents fs p fs' : parents fs -> lock_file fs p = Some fs' -> parents fs'.
Proof.
  intros Pa. unfold lock_file. destruct (list_eq_dec (list_eq_dec N.eq_dec) p []) as [->|Ne].
  - destruct (fs []) as [[d|]|] eqn:E; [|discriminate|discriminate]. intros H. injection H as <-. intros q c H.
    rewrite put_other in H by (destruct q; discriminate). pose proof (Pa q c H) as D. rewrite put_other; [exact D|]. intros <-. congruence.
  - destruct (exists_last Ne) as (d & nm & ->). unfold has_parent. rewrite removelast_last. intros H.
    assert (X : fs' = put_node (d ++ [nm]) (File []) fs /\ fs d = Some Directory /\ fs (d ++ [nm]) <> Some Directory).
    { destruct (fs (d ++ [nm])) as [[x|]|] eqn:E; [injection H as <-; split; [reflexivity|]; split; [apply (Pa d nm); congruence|discriminate]|discriminate|].
      destruct (d ++ [nm]) as [|y ys] eqn:Ey; [destruct d; discriminate|]. destruct (fs d) as [[x|]|] eqn:Ed; [discriminate| |discriminate]. injection H as <-. split; [reflexivity|]. split; [reflexivity|discriminate]. }
    destruct X as (-> & D & Nd). apply parents_put; assumption.
Qed.
Theorem start_new_in n fs cwd root fs' : rooted cwd -> parents fs -> N.of_nat n < 2 ^ 63 -> start_new n fs cwd root = (fs', Ok tt) ->
  parents fs' /\ (exists d, fs' (spec_abs cwd (create_lock cwd root)) = Some (File d)) /\
  forall i, (i < n)%nat -> (exists d, fs' (spec_abs cwd (path_of root (FPosts i))) = Some (File d)) /\ exists d, fs' (spec_abs cwd (path_of root (FTable i))) = Some (File d).
Proof.
  intros R Pa L. unfold start_new, create_in. destruct (lock_file fs (spec_abs cwd (create_lock cwd root))) as [fs1|] eqn:E1; [|discriminate].
  rewrite abs_again by exact R. destruct (make_dir fs1 (spec_abs cwd root)) as [fs2|] eqn:E2; [|discriminate]. intros H. apply (f_equal fst) in H. cbn [fst] in H. subst fs'.
  pose proof (lock_parents _ _ _ Pa E1) as Pa1. destruct (lock_file_inv _ _ _ E1) as (Lk & _ & _).
  set (Rt := spec_abs cwd root) in *. assert (Fr : fresh Rt fs2 /\ fs2 (spec_abs cwd (create_lock cwd root)) = Some (File [])).
  { unfold make_dir in E2. destruct (fs1 Rt) as [x|] eqn:Er; [discriminate|]. destruct (has_parent fs1 Rt) eqn:Hp; [|discriminate]. injection E2 as <-.
    unfold has_parent in Hp. destruct (list_eq_dec (list_eq_dec N.eq_dec) Rt []) as [Z|Ne]; [rewrite Z in Hp; discriminate|]. destruct (exists_last Ne) as (d & nm & E). rewrite E in *.
    rewrite removelast_last in Hp. assert (D : fs1 d = Some Directory) by (destruct (d ++ [nm]); [discriminate|]; destruct (fs1 d) as [[x|]|]; congruence).
    split; [split|].
    - apply parents_put; [exact Pa1|exact D|congruence].
    - split; [apply put_same|]. intros c. rewrite put_other; [|intros X; apply (f_equal (@List.length _)) in X; rewrite (app_length (d ++ [nm]) [c]) in X; cbn [List.length] in X; lia].
      intros X. assert (Y : fs1 ((d ++ [nm]) ++ [c]) <> None) by congruence. rewrite (Pa1 _ _ Y) in Er. discriminate.
    - rewrite put_other; [exact Lk|]. intros X. apply (lock_not_dir cwd root R). fold Rt. rewrite <- X. symmetry. exact E. }
  destruct Fr as [Fr Lk2].
  destruct (put_shards_in cwd (path_abs cwd root) Rt (abs_again cwd root R) n 0 fs2 Fr L) as ((Pa' & _) & B & C). split; [exact Pa'|]. split; [exact (B _ _ Lk2)|].
  intros i Hi. rewrite <- !(place_same cwd (path_abs cwd root) root) by exact (abs_again cwd root R). apply C. lia.
Qed.

(** * Opening an index to append *)
Theorem open_indexer_keeps fs cwd root fs' x : parents fs -> open_indexer_in fs cwd root = (fs', Ok x) ->
  parents fs' /\ forall q d, fs q = Some (File d) -> exists d', fs' q = Some (File d').
Proof.
  intros Pa E. unfold open_indexer_in in E. destruct (Json.read_config _) as [c|e| |]; try discriminate E.
  destruct (lock_file fs (spec_abs cwd (append_lock c))) as [fs1|] eqn:El; [|discriminate E]. apply (f_equal fst) in E. cbn [fst] in E. subst fs1.
  split; [exact (lock_parents _ _ _ Pa El)|]. intros q d Eq. destruct (lock_file_inv _ _ _ El) as (A & B & _).
  destruct (list_eq_dec (list_eq_dec N.eq_dec) q (spec_abs cwd (append_lock c))) as [->|Ne]; [eauto|]. rewrite B by exact Ne. eauto.
Qed.
Lemma files_at_is n fs cwd root k dat : content_at (files_at n fs cwd root) k = Some dat -> fs (spec_abs cwd (path_of root k)) = Some (File dat).
Proof.
  intros H. assert (X : forall q, read_at fs q = Some dat -> fs q = Some (File dat)) by (intros q; unfold read_at; destruct (fs q) as [[d|]|]; congruence).
  destruct k as [| | |i|i]; cbn [content_at files_at w_cfg w_dmd w_fnames w_shards] in H; try (apply X; exact H).
  all: destruct (Nat.lt_ge_cases i n) as [L|G]; [|rewrite nth_overflow in H by (rewrite map_length, seq_length; exact G); discriminate H].
  all: set (f := fun i => (read_at fs (spec_abs cwd (path_of root (FTable i))), read_at fs (spec_abs cwd (path_of root (FPosts i))))) in H.
  all: rewrite (nth_indep _ _ (f 0%nat)), map_nth, seq_nth in H by (rewrite ?map_length, ?seq_length; exact L); apply X; exact H.
Qed.

(** * Hidden roots *)
Theorem hidden_root fixed cwd lstat paths err docs dir nm rest : (forall p t, lstat p = Some t -> good_tree t) -> dot_name nm ->
  do_paths (fun _ => true) fixed lstat paths (false, []) = (err, docs) ->
  (forall p x, In p paths -> spec_abs cwd p <> (dir ++ [nm]) ++ x) -> ~ has_document cwd docs ((dir ++ [nm]) ++ rest).
Proof.
  intros G Dn E Out (d & Id & Ed). destruct (do_paths_sound (fun _ => true) fixed cwd lstat paths _ _ G E d Id) as [[]|(p & t & cs & dat & Ip & _ & V & _ & Dp & _)].
  rewrite Ed in Dp. clear Ed.
  assert (X : forall (a b c d : list bytes), a ++ b = c ++ d -> (exists y, c = a ++ y) \/ exists x, a = c ++ x).
  { clear. induction a as [|x a IH]; intros b [|y c] d H; [left; eexists; reflexivity|left; eexists; reflexivity|right; eexists; reflexivity|]. cbn [app] in H. injection H as -> H.
    destruct (IH b c d H) as [(z & ->)|(z & ->)]; [left|right]; eexists; reflexivity. }
  destruct (X _ _ _ _ Dp) as [(y & Y)|(y & Y)]; [exact (Out p y Ip Y)|].
  destruct (list_eq_dec (list_eq_dec N.eq_dec) y []) as [->|Ne]; [rewrite app_nil_r in Y; apply (Out p [] Ip); rewrite app_nil_r; auto|].
  destruct (exists_last Ne) as (z & w & ->). rewrite app_assoc in Y. apply app_inj_tail in Y. destruct Y as [-> <-]. rewrite <- !app_assoc in Dp. apply app_inv_head in Dp. subst cs.
  unfold visible in V. apply Forall_app in V. destruct V as [_ V]. inversion V as [|? ? V1 _]. exact (V1 Dn).
Qed.
