(** Which file the lock of an index is; witnesses. *)
From Coq Require Import String.
From Verif Require Import Model.Base Model.Path Model.Config Model.Lock Spec.Str Spec.Paths Spec.Locking Proof.Tactics Proof.PathP Proof.LockP.
Local Open Scope N_scope.
Local Open Scope list_scope.

Lemma walk1_plain st c : plain_name c -> walk1 st c = c :: st.
Proof. intros (A & _ & B & C). apply walk1_push; assumption. Qed.
Lemma walk1_keeps st c : Forall plain_name st -> ~ In 47 c -> Forall plain_name (walk1 st c).
Proof.
  intros F H. destruct (list_eq_dec N.eq_dec c []) as [->|N0]; [exact F|].
  destruct (list_eq_dec N.eq_dec c [46]) as [->|N1]; [exact F|].
  destruct (list_eq_dec N.eq_dec c [46; 46]) as [->|N2]; [destruct F; [constructor|assumption]|].
  rewrite walk1_push by assumption. constructor; [split; [|split; [|split]]; assumption|exact F].
Qed.
Lemma fold_walk_keeps cs : forall st, Forall plain_name st -> Forall (fun w => ~ In 47 w) cs -> Forall plain_name (fold_left walk1 cs st).
Proof. induction cs as [|c cs IH]; intros st F H; cbn [fold_left]; [exact F|]. inversion H; subst. apply IH; [apply walk1_keeps; assumption|assumption]. Qed.
Lemma resolve_plain cs : Forall (fun w => ~ In 47 w) cs -> Forall plain_name (resolve cs).
Proof. intros H. unfold resolve. apply Forall_rev. apply fold_walk_keeps; [constructor|exact H]. Qed.
Lemma fold_walk_plain cs : forall st, Forall plain_name cs -> fold_left walk1 cs st = rev cs ++ st.
Proof.
  induction cs as [|c cs IH]; intros st F; cbn [fold_left rev]; [reflexivity|]. inversion F; subst.
  rewrite walk1_plain by assumption. rewrite IH by assumption. rewrite <- app_assoc. reflexivity.
Qed.
Lemma resolve_self cs : Forall plain_name cs -> resolve ([] :: cs) = cs.
Proof. intros F. unfold resolve. cbn [fold_left walk1]. rewrite fold_walk_plain, app_nil_r, rev_involutive by exact F. reflexivity. Qed.
Lemma resolve_snoc cs c : plain_name c -> resolve (cs ++ [c]) = resolve cs ++ [c].
Proof. intros P. unfold resolve. rewrite fold_left_app. cbn [fold_left]. rewrite walk1_plain by exact P. reflexivity. Qed.
Lemma pieces_one w : ~ In 47 w -> pieces w = [w].
Proof.
  induction w as [|c w IH]; intros H; cbn [pieces]; [reflexivity|].
  destruct (N.eqb_spec c 47) as [->|_]; [contradiction H; left; reflexivity|].
  rewrite IH by (intros X; apply H; right; exact X). reflexivity.
Qed.
Lemma plain_lock name : plain_name name -> plain_name (name ++ dot_lock).
Proof.
  intros (A & B & C & D). split; [|split; [|split]].
  - destruct name; discriminate.
  - intros H. apply in_app_or in H. destruct H as [H|H]; [auto|]. cbn in H. intuition discriminate.
  - intros H. apply (f_equal (@List.length N)) in H. rewrite app_length in H. cbn in H. lia.
  - intros H. apply (f_equal (@List.length N)) in H. rewrite app_length in H. cbn in H. lia.
Qed.
Lemma abs_of_slash cwd path : (exists r, path = 47 :: r) -> spec_abs cwd path = resolve (pieces path).
Proof. intros (r & ->). apply spec_abs_rooted. Qed.
Lemma abs_of_rel cwd path : is_abs path = false -> spec_abs cwd path = resolve (pieces cwd ++ pieces path).
Proof. apply spec_abs_relative. Qed.
Lemma spec_abs_last cwd pre : (pre = [] \/ exists x, pre = x ++ [47]) ->
  exists dir, Forall plain_name dir /\ forall name', ~ In 47 name' -> plain_name name' -> spec_abs cwd (pre ++ name') = dir ++ [name'].
Proof.
  intros [->|(x & ->)].
  - exists (resolve (pieces cwd)). split; [apply resolve_plain, pieces_ok|]. intros nm Hn Pn. cbn [app].
    rewrite abs_of_rel.
    + rewrite (pieces_one nm) by exact Hn. apply resolve_snoc, Pn.
    + destruct nm as [|c nm]; [reflexivity|]. cbn [is_abs]. apply N.eqb_neq. intros ->. apply Hn. left. reflexivity.
  - destruct (is_abs (x ++ [47])) eqn:Ea.
    + exists (resolve (pieces x)). split; [apply resolve_plain, pieces_ok|]. intros nm Hn Pn.
      rewrite abs_of_slash.
      * rewrite <- app_assoc. cbn [app]. rewrite pieces_join, (pieces_one nm) by exact Hn. apply resolve_snoc, Pn.
      * destruct x as [|c x]; cbn [app is_abs] in *; [eauto|]. apply N.eqb_eq in Ea. subst c. eauto.
    + exists (resolve (pieces cwd ++ pieces x)). split; [apply resolve_plain, Forall_app; split; apply pieces_ok|]. intros nm Hn Pn.
      rewrite abs_of_rel.
      * rewrite <- app_assoc. cbn [app]. rewrite pieces_join, (pieces_one nm) by exact Hn. rewrite app_assoc. apply resolve_snoc, Pn.
      * destruct x as [|c x]; cbn [app is_abs] in *; [discriminate|exact Ea].
Qed.
Lemma slashed_snoc dir name x : slashed (dir ++ [name]) ++ x = slashed (dir ++ [name ++ x]).
Proof. induction dir as [|c d IH]; cbn [app slashed]; [rewrite !app_nil_r; reflexivity|]. cbn [app]. rewrite <- app_assoc, IH. reflexivity. Qed.
Lemma show_snoc dir name : show_abs (dir ++ [name]) = slashed (dir ++ [name]).
Proof. destruct dir; reflexivity. Qed.
Lemma plain_comps cs : Forall plain_name cs -> comps_ok cs.
Proof. apply Forall_impl. intros c (A & B & _). split; assumption. Qed.
Theorem same_lock_file cwd pre name : rooted cwd -> (pre = [] \/ exists x, pre = x ++ [47]) -> plain_name name ->
  file_at cwd (open_lock (pre ++ name)) = file_at cwd (create_lock cwd (pre ++ name)).
Proof.
  intros R P N. unfold file_at, open_lock, create_lock, lock_path. rewrite path_abs_spec by exact R.
  destruct (spec_abs_last cwd pre P) as (dir & Fd & E). pose proof (plain_lock name N) as N'.
  rewrite <- app_assoc. rewrite (E (name ++ dot_lock)), (E name) by (apply N || apply N' || assumption).
  rewrite show_snoc, slashed_snoc.
  assert (Fp : Forall plain_name (dir ++ [name ++ dot_lock])) by (apply Forall_app; split; [exact Fd|repeat constructor; apply N']).
  assert (S : exists r, slashed (dir ++ [name ++ dot_lock]) = 47 :: r) by (destruct dir; cbn [app slashed]; eauto).
  rewrite abs_of_slash by exact S. rewrite pieces_slashed by apply plain_comps, Fp. rewrite resolve_self by exact Fp. reflexivity.
Qed.

Theorem other_lock_file : let cwd := bs "/d" in
  file_at cwd (bs "x/") = file_at cwd (bs "x") /\ file_at cwd (open_lock (bs "x/")) <> file_at cwd (create_lock cwd (bs "x/")).
Proof. cbv zeta. split; [reflexivity|]. vm_compute. discriminate. Qed.

(** All but creators can have the index open together. *)
Theorem shared_together f ks : ~ In Creating ks ->
  exists us, lreach (users (map (pair f) ks)) us /\ forall i, (i < List.length ks)%nat -> in_use us i.
Proof.
  intros H. destruct (readers_together f (List.length ks)) as (us & R & U). exists us. split; [|exact U].
  replace (users (map (pair f) ks)) with (users (repeat (f, Reading) (List.length ks))); [exact R|].
  clear R U. unfold users. rewrite map_map. induction ks as [|k ks IH]; cbn [List.length repeat map]; [reflexivity|].
  f_equal; [|apply IH; intros X; apply H; right; exact X]. destruct k; [contradiction H; left; reflexivity|reflexivity|reflexivity].
Qed.
(** A user that failed to create keeps everybody else out until its process ends. *)
Theorem leaked_lock_excludes ps us i u : lreach (users ps) us -> nth_error us i = Some u -> us_todo u = [] -> us_held u = Some Ex ->
  forall us' j v, lreach_but i us us' -> j <> i -> nth_error us' j = Some v -> us_file v = us_file u -> us_held v = None /\ ~ in_use us' j.
Proof.
  intros R Hi _ H us' j v B Ne Ev Fv.
  assert (R' : lreach (users ps) us').
  { clear - R B. induction B as [|a b c j Hj B IH S]; [exact R|]. exact (lr_step _ _ _ _ (IH R) S). }
  assert (X : excl us'). { rewrite users_any in R'. eapply lreach_excl; [apply start_excl|exact R']. }
  assert (Ei : nth_error us' i = Some u) by (rewrite (lreach_but_same _ _ _ B); exact Hi).
  assert (Hv : us_held v = None) by (apply (X i j u v); auto; congruence). split; [exact Hv|].
  intros (v' & t & Ev' & Et). assert (v' = v) as -> by congruence.
  destruct (phases_at _ _ _ _ (lreach_phases _ _ R') Ev) as (q & _ & _ & Pq). pose proof (phase_use _ _ _ Pq Et). congruence.
Qed.
Ltac one_step u' := eapply lr_step; [|exists _, u'; split; [reflexivity|split; [|reflexivity]]].
Theorem leaked_lock_exists f ps : exists us u, lreach (users ((f, Creating) :: ps)) us /\ nth_error us 0 = Some u /\
  us_file u = f /\ us_todo u = [] /\ us_held u = Some Ex /\ us_wait u = Idle.
Proof.
  set (r := users ps). exists (MkUser f true (Some Ex) Idle [] :: r), (MkUser f true (Some Ex) Idle []). split; [|cbn; auto 6].
  change (users ((f, Creating) :: ps)) with (start f (prog Creating) :: r).
  apply (lr_step _ (MkUser f true (Some Ex) Idle [OUse; OFlock Sh; OClose] :: r) _ 0).
  2: { exists (MkUser f true (Some Ex) Idle [OUse; OFlock Sh; OClose]), (MkUser f true (Some Ex) Idle []). split; [reflexivity|split; [apply st_fails|reflexivity]]. }
  apply (lr_step _ (MkUser f true None Waiting [OFlock Ex; OUse; OFlock Sh; OClose] :: r) _ 0).
  2: { eexists _, _. split; [reflexivity|split; [apply st_grant|reflexivity]]. intros [|j] v Ne Ev Fv; [congruence|]. cbn [nth_error] in Ev.
       unfold r, users in Ev. rewrite nth_error_map in Ev. destruct (nth_error ps j); [|discriminate]. inversion Ev; subst v. exact Logic.I. }
  apply (lr_step _ (MkUser f true None Idle [OFlock Ex; OUse; OFlock Sh; OClose] :: r) _ 0).
  2: { eexists _, _. split; [reflexivity|split; [apply st_ask; discriminate|reflexivity]]. }
  apply (lr_step _ (start f (prog Creating) :: r) _ 0); [apply lr_refl|].
  eexists _, _. split; [reflexivity|split; [apply st_new|reflexivity]].
Qed.
Lemma creator_enters f b : (forall j v, nth_error b j = Some v -> us_file v = f -> us_held v = None) ->
  lreach (start f (prog Creating) :: b) (MkUser f true (Some Ex) Idle [OUse; OFlock Sh; OClose] :: b).
Proof.
  intros Hb. apply (lr_step _ (MkUser f true None Waiting [OFlock Ex; OUse; OFlock Sh; OClose] :: b) _ 0).
  2: { eexists _, _. split; [reflexivity|split; [apply st_grant|reflexivity]]. intros [|j] v Ne Ev Fv; [congruence|]. cbn [nth_error] in Ev.
       rewrite (Hb j v Ev Fv). exact Logic.I. }
  apply (lr_step _ (MkUser f true None Idle [OFlock Ex; OUse; OFlock Sh; OClose] :: b) _ 0).
  2: { eexists _, _. split; [reflexivity|split; [apply st_ask; discriminate|reflexivity]]. }
  apply (lr_step _ (start f (prog Creating) :: b) _ 0); [apply lr_refl|].
  eexists _, _. split; [reflexivity|split; [apply st_new|reflexivity]].
Qed.
Lemma creator_in f g : exists us, lreach (users [(f, Creating); (g, Reading)]) us /\ in_use us 0.
Proof.
  exists (MkUser f true (Some Ex) Idle [OUse; OFlock Sh; OClose] :: [start g (prog Reading)]). split.
  - apply creator_enters. intros [|[|j]] v E F; cbn in E; inversion E; subst; reflexivity.
  - eexists _, _. split; reflexivity.
Qed.
Theorem other_lock_both : let cwd := bs "/d" in
  file_at cwd (bs "x/") = file_at cwd (bs "x") /\
  let ps := [(file_at cwd (create_lock cwd (bs "x/")), Creating); (file_at cwd (open_lock (bs "x/")), Reading)] in
  exists us, lreach (users ps) us /\ in_use us 0 /\ in_use us 1.
Proof.
  cbv zeta. destruct other_lock_file as [A B]. cbv zeta in A, B. split; [exact A|].
  remember (file_at (bs "/d") (create_lock (bs "/d") (bs "x/"))) as f eqn:Ef. remember (file_at (bs "/d") (open_lock (bs "x/"))) as g eqn:Eg. clear Ef Eg A.
  exists [MkUser f true (Some Ex) Idle [OUse; OFlock Sh; OClose]; reading g]. split; [|split; eexists _, _; split; reflexivity].
  eapply lreach_trans; [apply (creator_enters f [start g (prog Reading)])|].
  - intros [|[|j]] v E F; cbn in E; inversion E; subst; reflexivity.
  - set (a := MkUser f true (Some Ex) Idle [OUse; OFlock Sh; OClose]).
    apply (lr_step _ [a; MkUser g true None Waiting [OFlock Sh; OUse; OFlock Sh; OClose]] _ 1).
    2: { eexists _, _. split; [reflexivity|split; [apply st_grant|reflexivity]]. intros [|[|[|j]]] v Ne Ev Fv; cbn in Ev; try congruence.
         inversion Ev; subst v. cbn in Fv. congruence. }
    apply (lr_step _ [a; MkUser g true None Idle [OFlock Sh; OUse; OFlock Sh; OClose]] _ 1).
    2: { eexists _, _. split; [reflexivity|split; [apply st_ask; discriminate|reflexivity]]. }
    apply (lr_step _ [a; start g (prog Reading)] _ 1); [apply lr_refl|].
    eexists _, _. split; [reflexivity|split; [apply st_new|reflexivity]].
Qed.
Theorem append_excludes_create ps us i f : lreach (users ps) us -> nth_error ps i = Some (f, Appending) -> in_use us i ->
  forall j, nth_error ps j = Some (f, Creating) -> ~ in_use us j.
Proof.
  intros R Hi Ui j Hj Uj. destruct Ui as (u & t & Eu & Et).
  destruct (phases_at _ _ _ _ (lreach_phases _ _ R) Eu) as (q & Hq & Fq & Pq). assert (q = (f, Appending)) as -> by congruence. cbn in Fq.
  destruct (Nat.eq_dec i j) as [->|Ne]; [congruence|].
  destruct (create_excludes ps us j f R Hj Uj i u Ne Eu Fq) as [_ X]. apply X. exists u, t. auto.
Qed.
Theorem unlock_happens f : exists us us' u u' t,
  lreach (any_users [(f, lock_new ++ lock_lock ++ lock_unlock); (f, lock_new ++ lock_lock)]) us /\ lreach us us' /\
  nth_error us 0 = Some u /\ us_todo u = lock_unlock ++ t /\
  nth_error us' 0 = Some u' /\ us_todo u' = t /\ us_open u' = true /\ us_wait u' = Idle.
Proof.
  set (b := start f (lock_new ++ lock_lock)).
  assert (Hb : forall m j v, j <> 0%nat -> nth_error [b] (pred j) = Some v -> us_file v = f -> match us_held v with None => True | Some Sh => m = Sh | Some Ex => False end).
  { intros m [|[|[|j]]] v N E _; cbn in E; inversion E; subst; exact Logic.I. }
  exists [MkUser f true (Some Ex) Idle (lock_unlock ++ []); b], [MkUser f true (Some Sh) Idle []; b]. eexists _, _, []. split; [|split; [|cbn; auto 8]].
  - apply (lr_step _ [MkUser f true None Waiting [OFlock Ex; OFlock Sh]; b] _ 0).
    2: { eexists _, _. split; [reflexivity|split; [apply st_grant|reflexivity]]. intros [|j] v Ne Ev Fv; [congruence|]. apply (Hb Ex (S j)); auto. }
    apply (lr_step _ [MkUser f true None Idle [OFlock Ex; OFlock Sh]; b] _ 0).
    2: { eexists _, _. split; [reflexivity|split; [apply st_ask; discriminate|reflexivity]]. }
    apply (lr_step _ [start f [ONew; OFlock Ex; OFlock Sh]; b] _ 0); [apply lr_refl|].
    eexists _, _. split; [reflexivity|split; [apply st_new|reflexivity]].
  - apply (lr_step _ [MkUser f true None Waiting [OFlock Sh]; b] _ 0).
    2: { eexists _, _. split; [reflexivity|split; [apply st_grant|reflexivity]]. intros [|j] v Ne Ev Fv; [congruence|]. apply (Hb Sh (S j)); auto. }
    apply (lr_step _ [MkUser f true (Some Ex) Idle [OFlock Sh]; b] _ 0); [apply lr_refl|].
    eexists _, _. split; [reflexivity|split; [apply st_ask; discriminate|reflexivity]].
Qed.
Theorem leak_locks_out f ps :
  exists us u, lreach (users ((f, Creating) :: ps)) us /\ nth_error us 0 = Some u /\ us_file u = f /\ us_todo u = [] /\ us_wait u = Idle /\
  forall us' j v, lreach_but 0 us us' -> j <> 0%nat -> nth_error us' j = Some v -> us_file v = f -> us_held v = None /\ ~ in_use us' j.
Proof.
  destruct (leaked_lock_exists f ps) as (us & u & R & E & F & T & H & W). exists us, u. repeat (split; [assumption|]).
  intros us' j v B Ne Ev Fv. apply (leaked_lock_excludes _ us 0 u R E T H us' j v B Ne Ev). congruence.
Qed.
Theorem exit_releases us us' i u u' : lstep i us us' -> nth_error us i = Some u -> us_open u = true ->
  nth_error us' i = Some u' -> us_open u' = false -> us_held u' = None.
Proof.
  intros (v & v' & Ev & S & ->) Hi O Hi' O'. rewrite nth_error_upd_eq in Hi' by (apply nth_error_Some; congruence).
  assert (v = u) as -> by congruence. assert (v' = u') as -> by congruence. destruct S; cbn in *; congruence.
Qed.
