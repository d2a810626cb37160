(** Finding and removing indexes. *)
From Verif Require Import Model.Base Model.Path Model.Utf8 Model.Token Model.Blotter Model.Shatter Model.Shard Model.Dmd Model.Fnames Model.Conc Model.Config Model.Json Model.Run Model.Index Model.Query Model.Session Model.Crash Model.Root Model.Lock.
From Verif Require Import Spec.Text Spec.Fingerprint Spec.Configs Spec.Paths Spec.Reading Spec.Querying Spec.History Spec.Locking.
From Verif Require Import Proof.Tactics Proof.PathP Proof.ConfigP Proof.QueryP Proof.SessionP Proof.SessionP2 Proof.CrashP Proof.CrashP2 Proof.LockP Proof.LockP2.
Local Open Scope N_scope.

Lemma create_cfg c x ws : create_indexer c = Ok (x, ws) -> x_cfg x = c.
Proof.
  unfold create_indexer. destruct (_ <? _)%Z; [discriminate|]. destruct (token_from_config _); cbn [bind]; try discriminate.
  destruct (new_adder _ _); cbn [bind]; try discriminate. destruct (start_workers _); cbn [bind]; try discriminate.
  intros E. injection E as <- _. reflexivity.
Qed.
Lemma open_cfg dk x ws : open_indexer dk = Ok (x, ws) -> k_cfg dk = Some (x_cfg x).
Proof.
  unfold open_indexer, read_config. destruct (k_cfg dk) as [c|]; cbn [bind]; [|discriminate].
  destruct (cfg_check c); cbn [bind]; try discriminate. destruct (_ <? _)%Z; [discriminate|].
  destruct (new_adder _ _); cbn [bind]; try discriminate. destruct (read_some _ _); cbn [bind]; try discriminate.
  destruct (token_from_config _); cbn [bind]; try discriminate.
  destruct (for_shards _ _ _); cbn [bind]; try discriminate. destruct (start_workers _); cbn [bind]; try discriminate.
  intros E. injection E as <- _. reflexivity.
Qed.
Lemma open_index_cfg sorted dk ix : open_index sorted dk = Ok ix -> k_cfg dk = Some (ix_cfg ix).
Proof.
  unfold open_index, read_config. destruct (k_cfg dk) as [c|]; cbn [bind]; [|discriminate].
  destruct (cfg_check c); cbn [bind]; try discriminate. 
  destruct (read_some _ _); cbn [bind]; try discriminate. destruct (read_some _ _); cbn [bind]; try discriminate.
  destruct (_ <? _)%Z; [discriminate|].
  destruct (for_shards _ _ _); cbn [bind]; try discriminate. 
  intros E. injection E as <-. reflexivity.
Qed.
Lemma history_cfg u c ss dk : history u c ss dk -> k_cfg dk = Some c.
Proof.
  intros H. induction H as [docs dk H|ss dk docs dk' H IH H'].
  - inversion H; subst. cbn [k_cfg]. f_equal. eapply create_cfg; eauto.
  - inversion H'; subst. cbn [k_cfg]. rewrite <- IH. symmetry. eapply open_cfg; eauto.
Qed.

Section C.
  Variables (u : unicode) (c : config) (k m n : nat).
  Hypothesis F : cfg_full c k m n.
  Hypothesis V : cfg_values c.

  Lemma read_anywhere dk : k_cfg dk = Some c -> Json.read_config (w_cfg (files_of dk)) = Ok c.
  Proof. intros E. unfold files_of. cbn [w_cfg]. rewrite E. cbn [option_map]. exact (cfg_back c k m n F V). Qed.
  (** Whatever is in the directory, the files that its configuration names are opened. *)
  Lemma open_elsewhere dirs p dk : k_cfg dk = Some c -> dirs p = files_of dk -> forall dk', k_cfg dk' = Some c -> dirs (cf_root c) = files_of dk' ->
    forall sorted, open_files sorted dirs p = open_index sorted dk' /\ open_indexer_files dirs p = open_indexer dk'.
  Proof.
    intros E Ed dk' E' Ed' sorted. destruct (open_files_of c k m n F V sorted dirs dk' Ed' E') as [<- <-].
    unfold open_files, open_indexer_files. rewrite Ed, Ed', (read_anywhere dk E), (read_anywhere dk' E'). split; reflexivity.
  Qed.
  Lemma open_moved dirs p dk : k_cfg dk = Some c -> dirs p = files_of dk -> dirs (cf_root c) = no_files ->
    forall sorted, open_files sorted dirs p = Err EOther /\ open_indexer_files dirs p = Err EOther.
  Proof.
    intros E Ed En sorted. unfold open_files, open_indexer_files. rewrite Ed, (read_anywhere dk E). cbn [bind]. rewrite En. cbn [no_files w_dmd w_fnames w_shards read_some bind].
    pose proof (cu_flush _ _ _ _ F) as Hf. pose proof (co_shards _ _ _ _ (cu_ok _ _ _ _ F)) as Hs.
    assert ((cf_numshards c <? 0)%Z = false) as -> by lia.
    unfold new_adder. assert ((cf_flush c <? 1)%Z = false) as -> by lia.
    cbn [bind]. split; reflexivity.
  Qed.

  Theorem moved_fails ss dk dirs cwd root : history u c ss dk -> dirs (path_abs cwd root) = files_of dk -> dirs (cf_root c) = no_files ->
    forall sorted, open_index_at sorted dirs cwd root = Err EOther /\ open_indexer_at dirs cwd root = Err EOther.
  Proof. intros H Ed En. apply (open_moved dirs _ dk); [eapply history_cfg; eauto|exact Ed|exact En]. Qed.
  Theorem copy_is_original ss dk ss' dk' dirs cwd root : history u c ss dk -> history u c ss' dk' ->
    dirs (path_abs cwd root) = files_of dk -> dirs (cf_root c) = files_of dk' ->
    forall sorted, open_index_at sorted dirs cwd root = open_index sorted dk' /\ open_indexer_at dirs cwd root = open_indexer dk'.
  Proof. intros H H' Ed Ed'. apply (open_elsewhere dirs _ dk); eauto using history_cfg. Qed.
  Theorem in_place ss dk dirs cwd root : history u c ss dk -> cf_root c = path_abs cwd root -> dirs (path_abs cwd root) = files_of dk ->
    forall sorted, open_index_at sorted dirs cwd root = open_index sorted dk /\ open_indexer_at dirs cwd root = open_indexer dk.
  Proof. intros H E Ed. apply (open_elsewhere dirs _ dk); rewrite ?E; eauto using history_cfg. Qed.
End C.

(** * What is removed *)
Lemma eq_bytes_iff a : forall b, eq_bytes a b = true <-> a = b.
Proof.
  induction a as [|x a IH]; intros [|y b]; cbn [eq_bytes]; split; intros H; try discriminate; try reflexivity.
  - apply andb_prop in H. destruct H as [H1 H2]. apply N.eqb_eq in H1. apply IH in H2. congruence.
  - injection H as -> ->. rewrite N.eqb_refl. cbn [andb]. apply IH. reflexivity.
Qed.
Lemma has_prefix_iff a : forall b, has_prefix a b = true <-> exists r, b = a ++ r.
Proof.
  induction a as [|x a IH]; intros b; cbn [has_prefix app]; [split; eauto|]. destruct b as [|y b].
  - split; [discriminate|intros [r E]; discriminate].
  - split.
    + intros H. apply andb_prop in H. destruct H as [H1 H2]. apply N.eqb_eq in H1. apply IH in H2. destruct H2 as [r ->]. exists r. congruence.
    + intros [r E]. injection E as -> ->. rewrite N.eqb_refl. cbn [andb]. apply IH. eauto.
Qed.
Lemma slashed_app a : forall b, slashed (a ++ b) = slashed a ++ slashed b.
Proof. induction a as [|x a IH]; intros b; cbn [app slashed]; [reflexivity|]. rewrite IH. rewrite <- app_assoc. reflexivity. Qed.
Lemma comps_prefix cs : comps_ok cs -> forall ds, comps_ok ds -> (exists r, slashed ds = slashed cs ++ 47 :: r) -> exists e, ds = cs ++ e.
Proof.
  induction cs as [|c cs IH]; intros Hc ds Hd [r E]; [exists ds; reflexivity|].
  inversion Hc as [|? ? [C1 C2] C3]; subst. destruct ds as [|d ds]; [discriminate|]. inversion Hd as [|? ? [D1 D2] D3]; subst.
  cbn [slashed app] in E. injection E as E. rewrite <- app_assoc in E.
  assert (G : forall a b x y, ~ In 47 a -> ~ In 47 b -> a ++ x = b ++ y -> (x = [] \/ exists x', x = 47 :: x') -> (exists y', y = 47 :: y') -> a = b /\ x = y).
  { clear. induction a as [|p a IHa]; intros [|q b] x y Ha Hb E Hx Hy; cbn [app] in E.
    - split; [reflexivity|exact E].
    - subst x. destruct Hx as [Hx|[x' Hx]]; [discriminate|]. injection Hx as -> _. contradiction Hb. left. reflexivity.
    - destruct Hy as [y' ->]. injection E as -> _. contradiction Ha. left. reflexivity.
    - injection E as -> E. destruct (IHa b x y) as [-> ->]; auto; intros I; [apply Ha|apply Hb]; right; exact I. }
  destruct (G d c (slashed ds) (slashed cs ++ 47 :: r) D2 C2 E) as [-> E2].
  - destruct ds; [left; reflexivity|right; eexists; reflexivity].
  - destruct cs; eexists; reflexivity.
  - destruct (IH C3 ds D3 (ex_intro _ r E2)) as [e ->]. exists e. reflexivity.
Qed.
Lemma slashed_inj cs ds : comps_ok cs -> comps_ok ds -> slashed cs = slashed ds -> cs = ds.
Proof. intros A B E. apply (f_equal pieces) in E. rewrite !pieces_slashed in E by assumption. injection E as E. exact E. Qed.
Lemma comps_ok_app a b : comps_ok (a ++ b) <-> comps_ok a /\ comps_ok b.
Proof. apply Forall_app. Qed.
Lemma below_spec cs ds : comps_ok cs -> comps_ok ds -> is_below (show_abs cs) (show_abs ds) = true <-> exists e, ds = cs ++ e.
Proof.
  intros A B. unfold is_below. rewrite Bool.orb_true_iff, eq_bytes_iff, has_prefix_iff.
  destruct cs as [|c cs].
  - cbn [show_abs]. split; [intros _; exists ds; reflexivity|]. intros _. right. destruct ds; eexists; reflexivity.
  - destruct ds as [|d ds].
    { cbn [show_abs]. inversion A as [|? ? [A1 _] _]; subst. destruct c as [|x c]; [contradiction|]. cbn [slashed app].
      split; [intros [E|[r E]]; discriminate|intros [e E]; discriminate]. }
    change (show_abs (c :: cs)) with (slashed (c :: cs)). change (show_abs (d :: ds)) with (slashed (d :: ds)).
    assert (El : forall X : bytes -> bytes -> bytes, match slashed (c :: cs) with [x] => X (slashed (c :: cs)) (slashed (c :: cs)) | _ => slashed (c :: cs) ++ [sep] end = slashed (c :: cs) ++ [sep]).
    { intros X. inversion A as [|? ? [A1 _] _]; subst. destruct c as [|x c]; [contradiction|]. cbn [slashed app]. reflexivity. }
    rewrite (El (fun a _ => a)). split.
    + intros [E|[r E]]; [exists []; rewrite app_nil_r; symmetry; apply slashed_inj; assumption|].
      apply (comps_prefix (c :: cs) A (d :: ds) B). exists r. rewrite <- app_assoc in E. exact E.
    + intros [e E]. rewrite E, slashed_app. destruct e as [|x e]; [left; cbn [slashed]; rewrite app_nil_r; reflexivity|].
      right. cbn [slashed]. exists (x ++ slashed e). rewrite <- app_assoc. reflexivity.
Qed.
Lemma plain_show cs : Forall plain_name cs -> comps_ok cs.
Proof. apply plain_comps. Qed.
Section R.
  Variables (u : unicode) (c : config) (k m n : nat).
  Hypothesis F : cfg_full c k m n.
  Hypothesis V : cfg_values c.

  Theorem remove_exact dirs cs : comps_ok cs -> forall x, x = show_abs cs ->
    (forall e, comps_ok (cs ++ e) -> remove_all x dirs (show_abs (cs ++ e)) = no_files) /\
    (forall ds, comps_ok ds -> (forall e, ds <> cs ++ e) -> remove_all x dirs (show_abs ds) = dirs (show_abs ds)).
  Proof.
    intros A x ->. unfold remove_all. split.
    - intros e B. assert (is_below (show_abs cs) (show_abs (cs ++ e)) = true) as -> by (apply below_spec; eauto). reflexivity.
    - intros ds B N. destruct (is_below _ _) eqn:E; [|reflexivity]. apply below_spec in E; [|assumption..]. destruct E as [e E]. contradiction (N e).
  Qed.
  Theorem remove_in_place ss dk dirs cwd root sorted ix : rooted cwd -> history u c ss dk -> cf_root c = path_abs cwd root ->
    dirs (path_abs cwd root) = files_of dk -> open_index_at sorted dirs cwd root = Ok ix ->
    (forall e, Forall plain_name e -> remove_index ix dirs (show_abs (spec_abs cwd root ++ e)) = no_files) /\
    (forall ds, Forall plain_name ds -> (forall e, ds <> spec_abs cwd root ++ e) -> remove_index ix dirs (show_abs ds) = dirs (show_abs ds)).
  Proof.
    intros R H E Ed Eo. destruct (in_place u c k m n F V ss dk dirs cwd root H E Ed sorted) as [Ei _]. rewrite Ei in Eo.
    apply open_index_cfg in Eo. rewrite (history_cfg u c ss dk H) in Eo. injection Eo as Eo. unfold remove_index. rewrite <- Eo, E, path_abs_spec by exact R.
    destruct (remove_exact dirs (spec_abs cwd root) (spec_abs_ok _ _) _ eq_refl) as [A B]. split.
    - intros e P. apply A. apply comps_ok_app. split; [apply spec_abs_ok|apply plain_comps, P].
    - intros ds P. apply B, plain_comps, P.
  Qed.
  Theorem remove_indexer_in_place ss dk dirs cwd root x ws : rooted cwd -> history u c ss dk -> cf_root c = path_abs cwd root ->
    dirs (path_abs cwd root) = files_of dk -> open_indexer_at dirs cwd root = Ok (x, ws) ->
    (forall e, Forall plain_name e -> remove_indexer x dirs (show_abs (spec_abs cwd root ++ e)) = no_files) /\
    (forall ds, Forall plain_name ds -> (forall e, ds <> spec_abs cwd root ++ e) -> remove_indexer x dirs (show_abs ds) = dirs (show_abs ds)).
  Proof.
    intros R H E Ed Eo. destruct (in_place u c k m n F V ss dk dirs cwd root H E Ed (fun _ => [])) as [_ Ei]. rewrite Ei in Eo.
    apply open_cfg in Eo. rewrite (history_cfg u c ss dk H) in Eo. injection Eo as Eo. unfold remove_indexer. rewrite <- Eo, E, path_abs_spec by exact R.
    destruct (remove_exact dirs (spec_abs cwd root) (spec_abs_ok _ _) _ eq_refl) as [A B]. split.
    - intros e P. apply A. apply comps_ok_app. split; [apply spec_abs_ok|apply plain_comps, P].
    - intros ds P. apply B, plain_comps, P.
  Qed.
  (** Removing a copy removes the original. *)
  Theorem remove_copy ss dk ss' dk' dirs cwd root cwd0 root0 sorted ix : rooted cwd -> rooted cwd0 -> history u c ss dk -> history u c ss' dk' ->
    cf_root c = path_abs cwd0 root0 -> (forall e, spec_abs cwd root <> spec_abs cwd0 root0 ++ e) ->
    dirs (path_abs cwd root) = files_of dk -> dirs (path_abs cwd0 root0) = files_of dk' -> open_index_at sorted dirs cwd root = Ok ix ->
    remove_index ix dirs (path_abs cwd0 root0) = no_files /\ remove_index ix dirs (path_abs cwd root) = files_of dk.
  Proof.
    intros R R0 H H' E Nb Ed Ed' Eo. rewrite <- E in Ed'. destruct (copy_is_original u c k m n F V ss dk ss' dk' dirs cwd root H H' Ed Ed' sorted) as [Ei _]. rewrite Ei in Eo.
    apply open_index_cfg in Eo. rewrite (history_cfg u c ss' dk' H') in Eo. injection Eo as Eo. unfold remove_index. rewrite <- Eo, E, !path_abs_spec by assumption.
    destruct (remove_exact dirs (spec_abs cwd0 root0) (spec_abs_ok _ _) _ eq_refl) as [A B]. split.
    - rewrite <- (app_nil_r (spec_abs cwd0 root0)) at 2. apply A. rewrite app_nil_r. apply spec_abs_ok.
    - rewrite B; [rewrite <- path_abs_spec by exact R; exact Ed|apply spec_abs_ok|exact Nb].
  Qed.
End R.

(** * The lock of a removed index *)
Lemma spec_abs_plain cwd path : Forall plain_name (spec_abs cwd path).
Proof.
  destruct (is_abs path) eqn:E.
  - destruct path as [|a r]; [discriminate|]. cbn [is_abs] in E. apply N.eqb_eq in E. unfold sep in E. subst a.
    rewrite spec_abs_rooted. apply resolve_plain, pieces_ok.
  - rewrite spec_abs_relative by exact E. apply resolve_plain, Forall_app. split; apply pieces_ok.
Qed.
Theorem lock_outside cwd root e : rooted cwd -> spec_abs cwd root <> [] -> file_at cwd (create_lock cwd root) <> file_at cwd root ++ e.
Proof.
  intros R Ne. unfold file_at, create_lock, lock_path. rewrite path_abs_spec by exact R.
  destruct (exists_last Ne) as (dir & name & E). rewrite E. pose proof (spec_abs_plain cwd root) as P. rewrite E in P.
  apply Forall_app in P. destruct P as [Pd Pn]. inversion Pn as [|? ? Pn1 _]; subst. pose proof (plain_lock name Pn1) as Pn'.
  rewrite show_snoc, slashed_snoc.
  assert (Fp : Forall plain_name (dir ++ [name ++ dot_lock])) by (apply Forall_app; split; [exact Pd|repeat constructor; apply Pn']).
  assert (Sl : exists r, slashed (dir ++ [name ++ dot_lock]) = 47 :: r) by (destruct dir; cbn [app slashed]; eauto).
  rewrite abs_of_slash by exact Sl. rewrite pieces_slashed by apply plain_comps, Fp. rewrite resolve_self by exact Fp.
  rewrite <- app_assoc. intros X. apply app_inv_head in X. cbn [app] in X. injection X as X _.
  apply (f_equal (@length N)) in X. rewrite app_length in X. cbn in X. lia.
Qed.

Definition in_state (f : list bytes) (k : kind) : user :=
  MkUser f true (Some (match k with Creating => Ex | _ => Sh end)) Idle (OUse :: lock_close).
Lemma reach_step us us' i v v' : nth_error us i = Some v -> ustep us i v v' -> lreach (upd i v' us) us' -> lreach us us'.
Proof. intros E St H. apply (lreach_trans _ (upd i v' us)); [|exact H]. eapply lr_step; [apply lr_refl|]. exists v, v'. split; [exact E|]. split; [exact St|reflexivity]. Qed.
(** The index that is about to be removed can be open by then. *)
Theorem removed_while_open f k1 k2 : exists us w, lreach (any_users [(f, prog k1 ++ [OUse]); (f, prog k2)]) us /\
  nth_error us 0 = Some w /\ us_todo w = [OUse] /\ us_held w = None /\ in_use us 1.
Proof.
  exists [MkUser f false None Idle [OUse]; in_state f k2], (MkUser f false None Idle [OUse]).
  split; [|repeat split; [reflexivity..|]; exists (in_state f k2), lock_close; split; reflexivity].
  unfold any_users, start. cbn [map fst snd].
  assert (G : forall a m, grantable [a; MkUser f false None Idle (prog k2)] 0 f m).
  { intros a md [|[|[|j]]] v Hj Hv Hf; try discriminate; [contradiction|]. cbn in Hv. injection Hv as <-. exact I. }
  assert (G1 : forall a m, us_held a = None -> grantable [a; MkUser f true None Waiting (skipn 1 (prog k2))] 1 f m).
  { intros a md Ha [|[|[|j]]] v Hj Hv Hf; try discriminate; [|contradiction]. cbn in Hv. injection Hv as <-. rewrite Ha. exact I. }
  assert (T : forall a, us_held a = None -> lreach [a; MkUser f false None Idle (prog k2)] [a; in_state f k2]).
  { intros a Ha. destruct k2;
    (eapply (reach_step _ _ 1); [reflexivity|apply st_new|]; cbn [upd];
     eapply (reach_step _ _ 1); [reflexivity|apply st_ask; discriminate|]; cbn [upd];
     eapply (reach_step _ _ 1); [reflexivity|apply st_grant; apply (G1 a _ Ha)|]; cbn [upd]; apply lr_refl). }
  destruct k1.
  - eapply (reach_step _ _ 0); [reflexivity|apply st_new|]. cbn [upd].
    eapply (reach_step _ _ 0); [reflexivity|apply st_ask; discriminate|]. cbn [upd].
    eapply (reach_step _ _ 0); [reflexivity|apply st_grant, G|]. cbn [upd].
    eapply (reach_step _ _ 0); [reflexivity|apply st_done|]. cbn [upd].
    eapply (reach_step _ _ 0); [reflexivity|apply st_ask; discriminate|]. cbn [upd].
    eapply (reach_step _ _ 0); [reflexivity|apply st_grant, G|]. cbn [upd].
    eapply (reach_step _ _ 0); [reflexivity|apply st_close; discriminate|]. cbn [upd]. apply T. reflexivity.
  - eapply (reach_step _ _ 0); [reflexivity|apply st_new|]. cbn [upd].
    eapply (reach_step _ _ 0); [reflexivity|apply st_ask; discriminate|]. cbn [upd].
    eapply (reach_step _ _ 0); [reflexivity|apply st_grant, G|]. cbn [upd].
    eapply (reach_step _ _ 0); [reflexivity|apply st_done|]. cbn [upd].
    eapply (reach_step _ _ 0); [reflexivity|apply st_same|]. cbn [upd].
    eapply (reach_step _ _ 0); [reflexivity|apply st_close; discriminate|]. cbn [upd]. apply T. reflexivity.
  - eapply (reach_step _ _ 0); [reflexivity|apply st_new|]. cbn [upd].
    eapply (reach_step _ _ 0); [reflexivity|apply st_ask; discriminate|]. cbn [upd].
    eapply (reach_step _ _ 0); [reflexivity|apply st_grant, G|]. cbn [upd].
    eapply (reach_step _ _ 0); [reflexivity|apply st_done|]. cbn [upd].
    eapply (reach_step _ _ 0); [reflexivity|apply st_same|]. cbn [upd].
    eapply (reach_step _ _ 0); [reflexivity|apply st_close; discriminate|]. cbn [upd]. apply T. reflexivity.
Qed.
