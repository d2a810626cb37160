(** C109: several indexes in one file system. *)
From Coq Require Import String.
From Verif Require Import Model.Base Model.Path Model.Utf8 Model.Token Model.Blotter Model.Config Model.Index Model.Query Model.Session Model.Crash Model.Lock Model.Names Model.Self Model.Several.
From Verif Require Import Spec.Str Spec.Text Spec.Fingerprint Spec.Paths Spec.Locking Spec.Names Spec.Configs Spec.Reading Spec.Querying Spec.History Spec.Several.
From Verif Require Import Proof.Tactics Proof.PathP Proof.TokenP Proof.BlotterP Proof.SessionP Proof.SessionP2 Proof.QueryP Proof.QueryW Proof.NamesP Proof.SeveralP Props.Query.
From Coq Require Import Lia.
Local Open Scope N_scope.
Local Open Scope list_scope.

(** Whatever is done with other indexes, before, after, or at the same time, and whatever else happens
    outside of the index and its lock file: an index that is not removed, none of whose sessions was stopped, and that no session is under way for has
    the files that its own sessions, one after another and alone, would have left; it can be appended to, under any
    name that leads to it; and opened for reading it is what Model/Session has for these
    files, unless under this name no lock file can be made. *)
Theorem C109_as_if_alone : forall u evs w, life u evs w -> fits evs -> forall c, In c (alive evs) -> ~ busy w c ->
  exists dk, history u c (own c evs) dk /\
  forall cwd, files_at (num_files c) (fs_now w) cwd (cf_root c) = files_of dk /\
  forall root, rooted cwd -> path_abs cwd root = cf_root c ->
    snd (open_indexer_in (fs_now w) cwd root) = open_indexer dk /\
    forall sorted, (lock_file (fs_now w) (file_at cwd (root ++ bs ".lock")) = None \/ snd (open_index_in sorted (fs_now w) cwd root) = open_index sorted dk) /\
      (root = cf_root c -> snd (open_index_in sorted (fs_now w) cwd root) = open_index sorted dk).
Proof.
  intros u evs w Li Ft c Ic Nb. pose proof (life_inv u evs w Li Ft) as [A B C E F G]. destruct (fits_now _ c Ft Ic) as ((k & m & n & Fu) & V & Fit).
  destruct (small_num _ _ _ _ Fu) as [En Ls]. destruct (G c Ic Nb) as (dk & Hi & Ef). exists dk. split; [exact Hi|]. intros cwd.
  assert (Efw : files_at (num_files c) (fs_now w) cwd (cf_root c) = files_of dk).
  { rewrite <- Ef. unfold files_now, files_at. cbv zeta. destruct (any_cwd c cwd (A c Ic)) as (_ & _ & X). unfold file_in in X. rewrite !X. f_equal. apply map_ext. intros i. rewrite !X. reflexivity. }
  split; [exact Efw|]. intros root R Er. destruct (history_files u c k m n _ dk Fu Hi Fit) as (Ln & _). rewrite En in Efw.
  assert (Lk : lock_file (fs_now w) (spec_abs cwd (append_lock c)) <> None).
  { rewrite (proj1 (proj2 (any_cwd c cwd (A c Ic)))). destruct (B c Ic) as [_ (d & X)]. unfold lock_file. rewrite X. discriminate. }
  pose proof (fun sorted => opens_by_paths u c k m n Fu V sorted _ dk Hi Ln cwd root (fs_now w) R Er Efw) as Op.
  split; [exact (proj2 (Op (fun _ => [])) Lk)|]. intros sorted. destruct (Op sorted) as [O1 _]. split.
  - change (file_at cwd (root ++ bs ".lock")) with (spec_abs cwd (open_lock root)). destruct (lock_file (fs_now w) (spec_abs cwd (open_lock root))) as [x|] eqn:El; [|left; reflexivity]. right. apply O1. discriminate.
  - intros ->. apply O1. exact Lk.
Qed.
(** So queries tell exactly the documents of its own sessions. *)
Theorem C109_answers : forall u evs w, life u evs w -> fits evs -> forall c k m n, In c (alive evs) -> ~ busy w c -> cfg_full c k m n ->
  forall sorted cwd wss, sorts sorted -> rooted cwd -> words_of (word_char u) (all_docs (own c evs)) wss ->
  exists ix, snd (open_index_in sorted (fs_now w) cwd (cf_root c)) = Ok ix /\
  forall grow blot fuel, (List.length (all_docs (own c evs)) < fuel)%nat ->
  exists ds, query_get grow ix fuel blot None = Ok ds /\
    docs_keys ds = map (place_of (all_docs (own c evs))) (carriers (word_hash u) k m n 0 wss (blot mod (N.of_nat n * 65536))).
Proof.
  intros u evs w Li Ft c k m n Ic Nb Fu sorted cwd wss So R Ww. destruct (C109_as_if_alone u evs w Li Ft c Ic Nb) as (dk & Hi & X). destruct (X cwd) as [_ Y].
  assert (Ep : path_abs cwd (cf_root c) = cf_root c) by exact (root_abs c cwd R (i_clean _ _ _ (life_inv u evs w Li Ft) c Ic)).
  destruct (Y (cf_root c) R Ep) as [_ Z]. destruct (Z sorted) as [_ Z2].
  destruct (C26_query_is_exact u c k m n sorted Fu So _ dk wss Hi (proj2 (proj2 (fits_now _ c Ft Ic))) Ww) as (ix & E & Q). exists ix. rewrite (Z2 eq_refl). auto.
Qed.
Print Assumptions C109_as_if_alone.
Print Assumptions C109_answers.

(** Two indexes, "/x" and "/y", whose sessions overlap, and "/x" is removed in the end. *)
Definition y_config : config := MkConfig (bs "/y") 10 2 2 16384 words_simple default_blot_config.
Definition two_events (docs : list (bytes * doc)) : list event := [Removed wit_config; Finished y_config wit_docs; Finished wit_config docs; Created y_config; Created wit_config].
Lemma create_ok fs cwd root : lock_file fs (spec_abs cwd (create_lock cwd root)) <> None -> rooted cwd ->
  fs (spec_abs cwd root) = None -> has_parent fs (spec_abs cwd root) = true -> removelast (spec_abs cwd root) <> spec_abs cwd (create_lock cwd root) ->
  exists fs', create_in fs cwd root = (fs', Ok tt) /\ forall q, q <> spec_abs cwd (create_lock cwd root) -> q <> spec_abs cwd root -> fs' q = fs q.
Proof.
  intros L R N P Ne. unfold create_in. destruct (lock_file fs _) as [fs1|] eqn:E; [|contradiction (L eq_refl)]. destruct (lock_file_inv _ _ _ E) as (_ & B & _).
  rewrite abs_again by exact R. unfold make_dir. rewrite (B (spec_abs cwd root)) by (intros X; exact (lock_not_dir cwd root R (eq_sym X))). rewrite N. unfold has_parent in *.
  destruct (spec_abs cwd root) as [|d ds] eqn:Ed; [discriminate|]. rewrite B by exact Ne. rewrite P. eexists. split; [reflexivity|]. intros q Q1 Q2. rewrite put_other by congruence. apply B, Q1.
Qed.
Example C109_example : forall u docs, docs_fit docs -> exists w, life u (two_events docs) w /\ fits (two_events docs) /\ under_way w = [] /\
  alive (two_events docs) = [y_config] /\ own y_config (two_events docs) = [wit_docs] /\ own wit_config (tl (two_events docs)) = [docs].
Proof.
  intros u docs Fit.
  assert (Fy : cfg_full y_config 1 10 2) by (constructor; [constructor; try reflexivity; lia|reflexivity|cbn; lia]).
  assert (Se : forall c, cfg_full c 1 10 2 -> (0 < cf_numshatters c)%Z -> forall d, docs_fit d -> exists dk, session u (create_indexer c) d dk).
  { intros c [A B C] Hs d Fd. destruct (history_exists u c 1 10 2 A B C [d] ltac:(discriminate) Hs) as (dk & H).
    - unfold all_docs. cbn [rev concat app]. rewrite app_nil_r. exact Fd.
    - exists dk. inversion H as [d0 dk0 X|? ? ? ? H0]; [exact X|inversion H0]. }
  destruct (Se wit_config wit_full eq_refl docs Fit) as (dx & Sx). destruct (Se y_config Fy eq_refl wit_docs wit_fit) as (dy & Sy).
  set (fs0 := put_node [] Directory (fun _ => None)).
  destruct (create_ok fs0 [47] (bs "x")) as (fs1 & E1 & O1); [discriminate|exists []; reflexivity|reflexivity|reflexivity|discriminate|].
  assert (K : forall c q, In c [wit_config; y_config] -> (List.length q <> 2)%nat -> forall k, In k (kinds (num_files c)) -> file_in c k <> q).
  { intros c q Ic L k _ <-. apply L. unfold file_in. destruct (file_at_place [47] (cf_root c) k) as (nm & _ & _ & _ & _ & _ & ->).
    destruct Ic as [<-|[<-|[]]]; reflexivity. }
  set (w1 := put_shards (num_files wit_config) [47] (cf_root wit_config) fs1).
  assert (W1 : forall q, (List.length q <> 2)%nat -> w1 q = fs1 q) by (intros q L; apply put_shards_keeps; apply K; [left; reflexivity|exact L]).
  assert (N2 : forall c k fs, In c [wit_config; y_config] -> In k (kinds (num_files c)) -> file_in c k <> [bs "x"] /\ file_in c k <> [bs "y"] /\ file_in c k <> [bs "x.lock"] /\ file_in c k <> [bs "y.lock"] /\ (fs = fs0 -> fs (file_in c k) = None)).
  { intros c k fs Ic Ik. repeat split; try (apply K; [exact Ic|cbn; lia|exact Ik]). intros ->. unfold fs0. apply put_other. intros X. apply (K c [] Ic ltac:(cbn; lia) k Ik). congruence. }
  assert (Wr1 : writable fs1 wit_config).
  { intros k Ik. destruct (N2 wit_config k fs0 (or_introl eq_refl) Ik) as (a & _ & b & _ & e). rewrite O1; [rewrite (e eq_refl); discriminate|exact b|exact a]. }
  destruct (create_ok w1 [47] (bs "y")) as (fs2 & E2 & O2).
  { change (spec_abs [47] (create_lock [47] (bs "y"))) with [bs "y.lock"]. unfold lock_file, has_parent. rewrite W1 by (cbn; lia). rewrite O1 by discriminate. change (fs0 [bs "y.lock"]) with (@None node).
    change (removelast [bs "y.lock"]) with (@nil bytes). rewrite W1 by (cbn; lia). rewrite O1 by discriminate. discriminate. }
  { exists []. reflexivity. }
  { change (spec_abs [47] (bs "y")) with [bs "y"]. rewrite W1 by (cbn; lia). rewrite O1 by discriminate. reflexivity. }
  { change (spec_abs [47] (bs "y")) with [bs "y"]. unfold has_parent. change (removelast [bs "y"]) with (@nil bytes). rewrite W1 by (cbn; lia). rewrite O1 by discriminate. reflexivity. }
  { discriminate. }
  assert (L1 : life u [Created wit_config] (MkWorld w1 [(wit_config, create_indexer wit_config)])).
  { exact (life_create u [] (MkWorld fs0 []) [47] (bs "x") wit_config fs1 (life_start u fs0) ltac:(exists []; reflexivity) eq_refl E1 Wr1). }
  assert (Nf : forall q, w1 q = Some Directory -> In q [[]; [bs "x"]]).
  { intros q D. destruct (Nat.eq_dec (List.length q) 2) as [L2|L2].
    - exfalso. assert (X : w1 q <> Some Directory); [|contradiction]. clear D. unfold w1, put_shards. generalize iix_created. intros tb. change (seq 0 (num_files wit_config)) with [0; 1]%nat. cbn [fold_left].
      unfold put_node at 1 2 3 4. repeat match goal with |- context [same_place ?a ?b] => destruct (same_place a b); [discriminate|] end.
      assert (fs1 q = None) as ->; [|discriminate]. rewrite O1; [|intros ->; discriminate L2|intros ->; discriminate L2]. unfold fs0. apply put_other. intros <-. discriminate L2.
    - rewrite W1 in D by exact L2. destruct (list_eq_dec (list_eq_dec N.eq_dec) q [bs "x"]) as [->|Nx]; [right; left; reflexivity|].
      destruct (list_eq_dec (list_eq_dec N.eq_dec) q [bs "x.lock"]) as [->|Nl].
      + destruct (create_in_is _ _ _ _ _ ltac:(exists []; reflexivity) E1) as [(_ & X & _)|(X & _)]; [discriminate X|]. change (spec_abs [47] (create_lock [47] (bs "x"))) with [bs "x.lock"] in X. rewrite X in D. discriminate.
      + rewrite O1 in D by assumption. unfold fs0, put_node in D. destruct (same_place [] q) eqn:Es; [|discriminate]. apply same_place_iff in Es. left. exact Es. }
  assert (Wr2 : writable fs2 y_config).
  { intros k Ik D. destruct (N2 y_config k fs0 (or_intror (or_introl eq_refl)) Ik) as (a1 & a2 & a3 & a4 & _). rewrite O2 in D by assumption. apply Nf in D. destruct D as [D|[D|[]]]; [|congruence].
    apply (K y_config [] (or_intror (or_introl eq_refl)) ltac:(cbn; lia) k Ik). congruence. }
  set (w2 := put_shards (num_files y_config) [47] (cf_root y_config) fs2).
  assert (L2 : life u [Created y_config; Created wit_config] (MkWorld w2 [(y_config, create_indexer y_config); (wit_config, create_indexer wit_config)])).
  { exact (life_create u _ (MkWorld w1 _) [47] (bs "y") y_config fs2 L1 ltac:(exists []; reflexivity) eq_refl E2 Wr2). }
  assert (Small : forall c, In c [wit_config; y_config] -> forall k, In k (kinds (num_files c)) -> int_number k).
  { intros c Ic k. apply small_kinds. destruct Ic as [<-|[<-|[]]]; reflexivity. }
  assert (Cl : forall c, In c [wit_config; y_config] -> clean_root c).
  { intros c Ic. destruct Ic as [<-|[<-|[]]]; [apply (clean_made [47] (bs "x"))|apply (clean_made [47] (bs "y"))]; try reflexivity; exists []; reflexivity. }
  assert (Apart : forall k k', In k (kinds (num_files y_config)) -> In k' (kinds (num_files wit_config)) -> file_in y_config k <> file_in wit_config k').
  { intros k k' Ik Ik' X. destruct (file_other y_config wit_config k k') as [Y _]; [apply Cl; right; left; reflexivity|apply Cl; left; reflexivity|eapply Small; [right; left; reflexivity|exact Ik]|eapply Small; [left; reflexivity|exact Ik']|exact X|discriminate Y]. }
  assert (Wr3 : writable w2 wit_config).
  { intros k Ik D. unfold w2 in D. rewrite put_shards_keeps in D by (intros k' Ik'; apply Apart; assumption).
    destruct (N2 wit_config k fs0 (or_introl eq_refl) Ik) as (a1 & a2 & a3 & a4 & _). rewrite O2 in D by assumption. apply Nf in D. destruct D as [D|[D|[]]]; [|congruence].
    apply (K wit_config [] (or_introl eq_refl) ltac:(cbn; lia) k Ik). congruence. }
  assert (Wr4 : writable w2 y_config).
  { intros k Ik D. destruct (fs2 (file_in y_config k)) as [x|] eqn:Ex.
    - assert (fs2 (file_in y_config k) <> Some Directory) by (apply Wr2, Ik).
      destruct (grows_put_shards y_config fs2 Wr2 (file_in y_config k)) as [_ X]. destruct x as [d|]; [|congruence]. destruct X as (d' & X); [exists d; exact Ex|]. unfold w2 in D. rewrite X in D. discriminate.
    - unfold w2, put_shards in D. revert D. generalize iix_created. intros tb. change (seq 0 (num_files y_config)) with [0; 1]%nat. cbn [fold_left].
      unfold put_node at 1 2 3 4. repeat match goal with |- context [same_place ?a ?b] => destruct (same_place a b); [discriminate|] end. rewrite Ex. discriminate. }
  pose proof (life_finish u _ w2 [(y_config, create_indexer y_config)] [] wit_config _ docs dx L2 Sx Wr3) as L3. cbn [app] in L3.
  assert (Wr5 : writable (put_files wit_config (files_of dx) w2) y_config).
  { intros k Ik D. rewrite put_files_keeps in D; [exact (Wr4 k Ik D)|]. intros k' Ik' X. exact (Apart k k' Ik Ik' (eq_sym X)). }
  pose proof (life_finish u _ _ [] [] y_config _ wit_docs dy L3 Sy Wr5) as L4. cbn [app] in L4.
  assert (Nb : forall c' (st : result (indexer * list blotter)), In (c', st) [] -> inside (dir_at wit_config) (dir_at c') = false) by (intros c' st []).
  pose proof (life_remove u _ (MkWorld _ []) wit_config L4 (or_intror (or_introl eq_refl)) Nb) as L5.
  eexists. split; [exact L5|].
  assert (Fx : docs_fit (all_docs [docs])) by (unfold all_docs; cbn [rev concat app]; rewrite app_nil_r; exact Fit).
  assert (F0 : docs_fit (all_docs [])) by (constructor; [constructor|vm_compute; reflexivity|vm_compute; reflexivity]).
  split; [|repeat split]. split.
  - intros c Ic. assert (c = y_config \/ c = wit_config) as [-> | ->] by (cbn [two_events In] in Ic; destruct Ic as [X|[X|[X|[X|[X|[]]]]]]; try discriminate X; [left|right]; congruence).
    + split; [exists 1%nat, 10%nat, 2%nat; exact Fy|]. constructor; try (split; [vm_compute; discriminate|reflexivity]); apply Utf8P.utf8_valid_spec; vm_compute; reflexivity.
    + split; [exists 1%nat, 10%nat, 2%nat; exact wit_full|]. constructor; try (split; [vm_compute; discriminate|reflexivity]); apply Utf8P.utf8_valid_spec; vm_compute; reflexivity.
  - intros later before E c Ic.
    assert (Ib : In (own c before) [[]; [docs]; [wit_docs]]); [|destruct Ib as [<-|[<-|[<-|[]]]]; [exact F0|exact Fx|exact wit_fit]].
    do 5 (destruct later as [|? later]; [cbn [app] in E; subst before; cbn in Ic; repeat destruct Ic as [<-|Ic]; try destruct Ic; cbn; auto|cbn [app] in E; apply (f_equal (@tl event)) in E; cbn [tl two_events] in E]).
    destruct later; [|discriminate E]. cbn [app] in E. subst before. destruct Ic.
Qed.
