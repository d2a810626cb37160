(** Exclusion by lock files on Windows. *)
From Verif Require Import Model.Base Model.Lock Model.LockWin Spec.LockingWin Proof.Tactics Proof.BlotterP.
From Coq Require Import Lia.

Definition one_holder (us : list wuser) : Prop := forall i j u v, nth_error us i = Some u -> nth_error us j = Some v ->
  w_file u = w_file v -> w_held u = true -> w_held v = true -> i = j.
Lemma wstep_file us u u' : wstep us u u' -> w_file u' = w_file u.
Proof. destruct 1; reflexivity. Qed.
Lemma wstep_held us u u' : wstep us u u' -> w_held u' = true -> w_held u = true \/ unlocked us (w_file u).
Proof. destruct 1; cbn; intros E; auto; discriminate. Qed.
Lemma at_upd (us : list wuser) i u u' a v : nth_error us i = Some u -> nth_error (upd i u' us) a = Some v -> (a = i /\ v = u') \/ (a <> i /\ nth_error us a = Some v).
Proof.
  intros Eu E. rewrite nth_error_upd in E. destruct (Nat.eqb_spec i a) as [<-|Na]; [rewrite Eu in E; left; split; congruence|right; split; congruence].
Qed.
Lemma win_step_one us us' i : one_holder us -> win_step i us us' -> one_holder us'.
Proof.
  intros X (u & u' & Eu & S & ->) a b ua ub Ea Eb F Ha Hb. pose proof (wstep_file _ _ _ S) as Ff.
  destruct (at_upd _ _ _ _ _ _ Eu Ea) as [(-> & ->)|(Na & Ea')]; destruct (at_upd _ _ _ _ _ _ Eu Eb) as [(-> & ->)|(Nb & Eb')].
  - reflexivity.
  - destruct (wstep_held _ _ _ S Ha) as [H|H]; [apply (X i b u ub); congruence|]. rewrite (H b ub Eb' ltac:(congruence)) in Hb. discriminate.
  - destruct (wstep_held _ _ _ S Hb) as [H|H]; [apply (X a i ua u); congruence|]. rewrite (H a ua Ea' ltac:(congruence)) in Ha. discriminate.
  - exact (X a b ua ub Ea' Eb' F Ha Hb).
Qed.
Lemma win_reach_one us us' : one_holder us -> win_reach us us' -> one_holder us'.
Proof. intros X R. induction R; eauto using win_step_one. Qed.
Lemma start_one ps : one_holder (win_any ps).
Proof.
  intros i j u v Ei _ _ H. unfold win_any in Ei. rewrite nth_error_map in Ei. destruct (nth_error ps i); [|discriminate]. inversion Ei; subst. discriminate.
Qed.
Lemma users_are ps : win_users ps = win_any (map (fun p => (fst p, win_prog (snd p))) ps).
Proof. unfold win_users, win_any. rewrite map_map. reflexivity. Qed.

(** Where a user of an index can be in its program. *)
Inductive place : wuser -> Prop :=
  | pl_start f : place (MkWuser f false false [WNew; WLock; WUse; WUnlock; WClose])
  | pl_lock f : place (MkWuser f true false [WLock; WUse; WUnlock; WClose])
  | pl_use f : place (MkWuser f true true [WUse; WUnlock; WClose])
  | pl_unlock f : place (MkWuser f true true [WUnlock; WClose])
  | pl_close f h : place (MkWuser f true h [WClose])
  | pl_over f o h : place (MkWuser f o h []).
Lemma wstep_place us u u' : place u -> wstep us u u' -> place u'.
Proof. intros P S. destruct P; inversion S; subst; cbn [win_after_error]; constructor. Qed.
Lemma places ps us : win_reach (win_users ps) us -> forall i u, nth_error us i = Some u -> place u.
Proof.
  remember (win_users ps) as u0 eqn:E0. intros R. revert E0. induction R as [us|us us' us'' i R IH S]; intros ->.
  - intros i u E. unfold win_users in E. rewrite nth_error_map in E. destruct (nth_error ps i) as [(f & k)|]; [|discriminate]. inversion E; subst. destruct k; apply pl_start.
  - specialize (IH eq_refl). destruct S as (u & u' & Eu & S & ->). intros a v Ea. destruct (at_upd _ _ _ _ _ _ Eu Ea) as [(-> & ->)|(_ & Ea')]; [exact (wstep_place _ _ _ (IH i u Eu) S)|exact (IH a v Ea')].
Qed.
Lemma use_held u : place u -> forall t, w_todo u = WUse :: t -> w_held u = true.
Proof. intros P t E. destruct P; cbn in *; try discriminate; reflexivity. Qed.

Lemma win_alone ps us i j f : win_reach (win_users ps) us -> win_in_use us i f -> win_in_use us j f -> i = j.
Proof.
  intros R (u & t & Eu & Et & Ef) (v & t' & Ev & Et' & Ef'). pose proof (places _ _ R) as P.
  assert (O1 : one_holder (win_users ps)) by (rewrite users_are; apply start_one).
  apply (win_reach_one _ _ O1 R i j u v Eu Ev); [congruence| |]; eapply use_held; eauto.
Qed.
Lemma but_reach i us us' : win_reach_but i us us' -> win_reach us us'.
Proof. induction 1; [constructor|econstructor; eassumption]. Qed.
Lemma win_reach_trans us us' us'' : win_reach us us' -> win_reach us' us'' -> win_reach us us''.
Proof. intros A B. induction B; [exact A|econstructor; [apply IHB; exact A|eassumption]]. Qed.
Lemma but_keeps i us us' : win_reach_but i us us' -> nth_error us' i = nth_error us i.
Proof.
  induction 1 as [us|us us' us'' j Ne R IH (u & u' & Eu & S & ->)]; [reflexivity|]. rewrite nth_error_upd. destruct (Nat.eqb_spec j i); [contradiction|exact IH].
Qed.
Lemma win_waits ps us i j f : win_reach (win_users ps) us -> win_in_use us i f -> j <> i ->
  forall us', win_reach_but i us us' -> ~ win_in_use us' j f.
Proof.
  intros R (u & t & Eu & Et & Ef) Ne us' B X. apply Ne. apply (win_alone ps us' j i f); [exact (win_reach_trans _ _ _ R (but_reach _ _ _ B))|exact X|].
  exists u, t. rewrite (but_keeps _ _ _ B). auto.
Qed.
Lemma win_released ps us us' i u u' : win_reach (win_any ps) us -> win_step i us us' -> nth_error us i = Some u -> w_held u = true ->
  nth_error us' i = Some u' -> w_held u' = false -> unlocked us' (w_file u).
Proof.
  intros R (v & v' & Ev & S & ->) Eu H Eu' H' j w Ej Ef. assert (v = u) as -> by congruence.
  destruct (at_upd _ _ _ _ _ _ Ev Eu') as [(_ & ->)|(N & _)]; [|congruence].
  destruct (at_upd _ _ _ _ _ _ Ev Ej) as [(_ & ->)|(N & Ej')]; [exact H'|]. destruct (w_held w) eqn:Ew; [|reflexivity].
  contradiction N. exact (win_reach_one _ _ (start_one ps) R j i w u Ej' Ev Ef Ew H).
Qed.
Lemma step_at us i u u' : nth_error us i = Some u -> wstep us u u' -> win_step i us (upd i u' us).
Proof. intros A B. exists u, u'. auto. Qed.
Lemma first_in f k ps :
  exists t, win_reach (win_users ((f, k) :: ps)) (MkWuser f true true (WUse :: t) :: win_users ps).
Proof.
  exists [WUnlock; WClose].
  set (us := win_users ps). assert (E : win_users ((f, k) :: ps) = MkWuser f false false [WNew; WLock; WUse; WUnlock; WClose] :: us) by (destruct k; reflexivity). rewrite E.
  eapply wr_step with (i := O); [eapply wr_step with (i := O); [apply wr_refl|]|].
  - exists (MkWuser f false false [WNew; WLock; WUse; WUnlock; WClose]), (MkWuser f true false [WLock; WUse; WUnlock; WClose]). split; [reflexivity|]. split; [constructor|reflexivity].
  - eexists _, _. split; [reflexivity|]. split; [|reflexivity]. constructor. intros [|j] v Ej _; [inversion Ej; reflexivity|]. cbn in Ej.
    unfold us, win_users in Ej. rewrite nth_error_map in Ej. destruct (nth_error ps j); [|discriminate]. inversion Ej. reflexivity.
Qed.
Lemma win_leak f k ps : exists us, win_reach (win_users ((f, k) :: ps)) us /\ nth_error us 0 = Some (MkWuser f true true []) /\
  forall us' j v, win_reach_but 0 us us' -> j <> 0%nat -> nth_error us' j = Some v -> w_file v = f -> w_held v = false /\ ~ win_in_use us' j f.
Proof.
  destruct (first_in f k ps) as (t & R). eexists. split; [|split].
  - eapply wr_step with (i := O); [exact R|]. eexists _, _. split; [reflexivity|]. split; [apply ws_fails|reflexivity].
  - reflexivity.
  - cbn [upd]. intros us' j v B Ne Ej Ef.
    assert (R2 : win_reach (win_users ((f, k) :: ps)) us').
    { eapply win_reach_trans; [|exact (but_reach _ _ _ B)]. eapply wr_step with (i := O); [exact R|]. eexists _, _. split; [reflexivity|]. split; [apply ws_fails|reflexivity]. }
    assert (H : w_held v = false).
    { destruct (w_held v) eqn:Ev; [|reflexivity]. contradiction Ne. assert (O1 : one_holder (win_users ((f, k) :: ps))) by (rewrite users_are; apply start_one).
      pose proof (but_keeps _ _ _ B) as K. cbn [nth_error] in K. exact (win_reach_one _ _ O1 R2 j 0%nat v _ Ej K Ef Ev eq_refl). }
    split; [exact H|]. intros (w & t' & Ew & Et & _). assert (w = v) as -> by congruence. rewrite (use_held v (places _ _ R2 j v Ej) t' Et) in H. discriminate.
Qed.
