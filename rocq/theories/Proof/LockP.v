(** Exclusion by lock files. *)
From Verif Require Import Model.Base Model.Path Model.Config Model.Lock Spec.Paths Spec.Locking Proof.Tactics Proof.BlotterP.
Local Open Scope N_scope.

Definition excl (us : list user) : Prop := forall i j u v, i <> j -> nth_error us i = Some u -> nth_error us j = Some v ->
  us_file u = us_file v -> us_held u = Some Ex -> us_held v = None.

Lemma ustep_file us i u u' : ustep us i u u' -> us_file u' = us_file u.
Proof. destruct 1; reflexivity. Qed.
Lemma ustep_held us i u u' m : ustep us i u u' -> us_held u' = Some m -> us_held u = Some m \/ grantable us i (us_file u) m.
Proof. destruct 1; cbn; intros E; auto; try discriminate. inversion E; subst. auto. Qed.

Lemma lstep_excl us us' i : excl us -> lstep i us us' -> excl us'.
Proof.
  intros X (u & u' & Eu & S & ->) a b ua ub Ne Ea Eb F H.
  assert (Li : (i < length us)%nat) by (apply nth_error_Some; congruence).
  pose proof (ustep_file _ _ _ _ S) as Ff.
  rewrite nth_error_upd in Ea, Eb.
  assert (Some_i : match nth_error us i with Some _ => Some u' | None => None end = Some u') by (rewrite Eu; reflexivity).
  destruct (Nat.eqb_spec i a) as [<-|Na]; destruct (Nat.eqb_spec i b) as [<-|Nb]; try congruence.
  - assert (ua = u') as -> by congruence. clear Ea. destruct (ustep_held _ _ _ _ _ S H) as [H'|G].
    + apply (X i b u ub); auto. congruence.
    + specialize (G b ub ltac:(congruence) Eb ltac:(congruence)). destruct (us_held ub) as [[]|]; [discriminate|contradiction|reflexivity].
  - assert (ub = u') as -> by congruence. clear Eb. destruct (us_held u') as [m|] eqn:Em; [|reflexivity].
    destruct (ustep_held _ _ _ _ _ S Em) as [H'|G].
    + assert (us_held u = None) by (apply (X a i ua u); auto; congruence). congruence.
    + specialize (G a ua ltac:(congruence) Ea ltac:(congruence)). rewrite H in G. contradiction.
  - apply (X a b ua ub); auto.
Qed.
Lemma lreach_excl us us' : excl us -> lreach us us' -> excl us'.
Proof. intros X R. induction R; eauto using lstep_excl. Qed.
Lemma start_excl ps : excl (any_users ps).
Proof.
  intros i j u v _ Ei _ _ H. unfold any_users in Ei. rewrite nth_error_map in Ei. destruct (nth_error ps i); [|discriminate].
  inversion Ei; subst. discriminate.
Qed.
Lemma users_any ps : users ps = any_users (map (fun p => (fst p, prog (snd p))) ps).
Proof. unfold users, any_users. rewrite map_map. reflexivity. Qed.

(** Where a user of an index can be in its program. *)
Definition kmode (k : kind) : mode := match k with Creating => Ex | _ => Sh end.
Inductive phase (k : kind) : user -> Prop :=
  | ph_start f : phase k (start f (prog k))
  | ph_lock f w : w <> Failed -> phase k (MkUser f true None w (OFlock (kmode k) :: [OUse; OFlock Sh; OClose]))
  | ph_use f : phase k (MkUser f true (Some (kmode k)) Idle [OUse; OFlock Sh; OClose])
  | ph_unlock f : phase k (MkUser f true (Some (kmode k)) Idle [OFlock Sh; OClose])
  | ph_unlocking f : phase k (MkUser f true None Waiting [OFlock Sh; OClose])
  | ph_unlocked f h w : (h = None \/ h = Some Sh) -> phase k (MkUser f true h w [OClose])
  | ph_end f : phase k (MkUser f false None Idle [])
  | ph_leaked f h w : (h = None \/ h = Some (kmode k)) -> phase k (MkUser f true h w []).
Lemma prog_shape k : prog k = [ONew; OFlock (kmode k); OUse; OFlock Sh; OClose].
Proof. destruct k; reflexivity. Qed.
Lemma ustep_phase k us i u u' : phase k u -> ustep us i u u' -> phase k u'.
Proof.
  intros P S. destruct P; unfold start in *; try rewrite prog_shape in *; inversion S; subst; cbn [after_error]; try solve [constructor; auto; discriminate].
  constructor. right. congruence.
Qed.
Definition phases (ps : list (list bytes * kind)) (us : list user) : Prop :=
  Forall2 (fun p u => us_file u = fst p /\ phase (snd p) u) ps us.
Lemma upd_phases ps us i u' : phases ps us -> (forall p, nth_error ps i = Some p -> us_file u' = fst p /\ phase (snd p) u') -> phases ps (upd i u' us).
Proof.
  intros P. revert i. induction P as [|p u ps us Hp P IH]; intros [|i] H; cbn [upd]; try constructor; auto.
  apply IH. intros q Hq. apply H. exact Hq.
Qed.
Lemma phases_at ps us i u : phases ps us -> nth_error us i = Some u -> exists p, nth_error ps i = Some p /\ us_file u = fst p /\ phase (snd p) u.
Proof.
  intros P. revert i. induction P as [|p v ps us Hp P IH]; intros [|i] H; cbn in *; try discriminate.
  - inversion H; subst. eauto.
  - auto.
Qed.
Lemma lreach_phases ps us : lreach (users ps) us -> phases ps us.
Proof.
  remember (users ps) as u0 eqn:E0. intros R. revert E0. induction R as [us|us us' us'' i R IH S]; intros ->.
  - unfold users, phases. induction ps as [|p ps IH]; cbn [map]; constructor; auto. split; [reflexivity|constructor].
  - specialize (IH eq_refl). destruct S as (u & u' & Eu & S & ->). apply upd_phases; auto. intros p Hp.
    destruct (phases_at _ _ _ _ IH Eu) as (q & Hq & F & Ph). assert (q = p) as -> by congruence.
    rewrite (ustep_file _ _ _ _ S). split; [exact F|]. eapply ustep_phase; eauto.
Qed.
Lemma phase_use k u t : phase k u -> us_todo u = OUse :: t -> us_held u = Some (kmode k).
Proof. destruct 1; cbn; try discriminate; auto. rewrite prog_shape. discriminate. Qed.

Theorem create_excludes ps us i f : lreach (users ps) us -> nth_error ps i = Some (f, Creating) -> in_use us i ->
  forall j v, j <> i -> nth_error us j = Some v -> us_file v = f -> us_held v = None /\ ~ in_use us j.
Proof.
  intros R Hi (u & t & Eu & Et) j v Ne Ev Fv. pose proof (lreach_phases _ _ R) as P.
  destruct (phases_at _ _ _ _ P Eu) as (p & Hp & F & Ph). assert (p = (f, Creating)) as -> by congruence.
  pose proof (phase_use _ _ _ Ph Et) as H. cbn in H, F.
  assert (X : excl us). { rewrite users_any in R. eapply lreach_excl; [apply start_excl|exact R]. }
  assert (Hv : us_held v = None) by (apply (X i j u v); auto; congruence).
  split; [exact Hv|]. intros (v' & t' & Ev' & Et'). assert (v' = v) as -> by congruence.
  destruct (phases_at _ _ _ _ P Ev) as (q & _ & _ & Pq). pose proof (phase_use _ _ _ Pq Et'). congruence.
Qed.
(** A shared lock is only kept from its users by creators. *)
Theorem shared_waits_for_creator ps us i f w t : lreach (users ps) us ->
  nth_error us i = Some (MkUser f true None w (OFlock Sh :: t)) ->
  (forall j v, nth_error ps j = Some (f, Creating) -> nth_error us j = Some v -> us_held v <> Some Ex) ->
  grantable us i f Sh.
Proof.
  intros R Hi C j v Ne Ev Fv. destruct (us_held v) as [[]|] eqn:Hv; auto.
  pose proof (lreach_phases _ _ R) as P. destruct (phases_at _ _ _ _ P Ev) as ([f' k] & Hq & F & Pq). cbn in *.
  destruct k.
  - apply (C j v); auto. congruence.
  - exfalso. destruct Pq; cbn in *; intuition congruence.
  - exfalso. destruct Pq; cbn in *; intuition congruence.
Qed.

(** Any number of readers can have an index open together. *)
Lemma lreach_trans a b c : lreach a b -> lreach b c -> lreach a c.
Proof. intros H1 H2. induction H2; eauto using lr_step. Qed.
Definition reading (f : list bytes) : user := MkUser f true (Some Sh) Idle [OUse; OFlock Sh; OClose].
Lemma upd_app {A} (a b : list A) x y : upd (length a) x (a ++ y :: b) = a ++ x :: b.
Proof. induction a as [|z a IH]; cbn [length app upd]; [reflexivity|]. rewrite IH. reflexivity. Qed.
Lemma nth_error_mid {A} (a b : list A) y : nth_error (a ++ y :: b) (length a) = Some y.
Proof. rewrite nth_error_app2 by lia. rewrite Nat.sub_diag. reflexivity. Qed.
Lemma one_more_reader f n b : lreach (repeat (reading f) n ++ start f (prog Reading) :: b) (repeat (reading f) n ++ reading f :: b) \/ exists v, In v b /\ us_held v <> None.
Proof.
  assert (D : (forall v, In v b -> us_held v = None) \/ exists v, In v b /\ us_held v <> None).
  { induction b as [|v b [IH|(w & A & B)]]; [left; intros v []| |right; exists w; split; [right; exact A|exact B]].
    destruct (us_held v) as [m|] eqn:E; [right; exists v; split; [left; reflexivity|congruence]|]. left. intros w [<-|H]; auto. }
  destruct D as [D|D]; [left|right; exact D].
  pose proof (repeat_length (reading f) n) as Ln. remember (repeat (reading f) n) as a eqn:Ea.
  set (u1 := MkUser f true None Idle [OFlock Sh; OUse; OFlock Sh; OClose]).
  set (u2 := MkUser f true None Waiting [OFlock Sh; OUse; OFlock Sh; OClose]).
  assert (S1 : lstep (length a) (a ++ start f (prog Reading) :: b) (a ++ u1 :: b)).
  { exists (start f (prog Reading)), u1. rewrite nth_error_mid, upd_app. split; [reflexivity|split; [constructor|reflexivity]]. }
  assert (S2 : lstep (length a) (a ++ u1 :: b) (a ++ u2 :: b)).
  { exists u1, u2. rewrite nth_error_mid, upd_app. split; [reflexivity|split; [constructor; discriminate|reflexivity]]. }
  assert (S3 : lstep (length a) (a ++ u2 :: b) (a ++ reading f :: b)).
  { exists u2, (reading f). rewrite nth_error_mid, upd_app. split; [reflexivity|split; [|reflexivity]]. constructor.
    intros j v Ne Ev Fv. apply nth_error_In in Ev as I. apply in_app_or in I. destruct I as [I|[I|I]].
    - rewrite Ea in I. apply repeat_spec in I. subst v. reflexivity.
    - subst v. exact Logic.I.
    - rewrite (D v I). exact Logic.I. }
  eapply lr_step; [eapply lr_step; [eapply lr_step; [apply lr_refl|exact S1]|exact S2]|exact S3].
Qed.
Theorem readers_together f n : exists us, lreach (users (repeat (f, Reading) n)) us /\ forall i, (i < n)%nat -> in_use us i.
Proof.
  exists (repeat (reading f) n). split.
  - assert (G : forall a b, lreach (repeat (reading f) a ++ repeat (start f (prog Reading)) b) (repeat (reading f) (a + b))).
    { intros a b. revert a. induction b as [|b IH]; intros a.
      - cbn [repeat]. rewrite app_nil_r, Nat.add_0_r. apply lr_refl.
      - cbn [repeat]. destruct (one_more_reader f a (repeat (start f (prog Reading)) b)) as [H|(v & I & E)].
        + replace (repeat (reading f) a ++ reading f :: repeat (start f (prog Reading)) b)
            with (repeat (reading f) (S a) ++ repeat (start f (prog Reading)) b) in H.
          * eapply lreach_trans; [exact H|]. replace (a + S b)%nat with (S a + b)%nat by lia. apply IH.
          * change (reading f :: repeat (start f (prog Reading)) b) with ([reading f] ++ repeat (start f (prog Reading)) b).
            rewrite app_assoc. f_equal. cbn [repeat]. apply repeat_cons.
        + apply repeat_spec in I. subst v. contradiction E. reflexivity. }
    specialize (G 0%nat n). cbn [repeat app Nat.add] in G. unfold users. replace (map _ (repeat (f, Reading) n)) with (repeat (start f (prog Reading)) n); [exact G|].
    symmetry. clear G. induction n as [|n IH]; cbn [repeat map]; [reflexivity|]. f_equal. exact IH.
  - intros i L. exists (reading f), [OFlock Sh; OClose]. split; [|reflexivity]. apply nth_error_repeat. exact L.
Qed.

(** Unlock only turns the lock into a shared one. *)
Lemma lreach_but_same i us us' : lreach_but i us us' -> nth_error us' i = nth_error us i.
Proof.
  induction 1 as [|us us' us'' j Ne R IH (u & u' & _ & _ & ->)]; [reflexivity|]. rewrite nth_error_upd_ne by exact Ne. exact IH.
Qed.
Lemma lreach_but_excl i us us' : excl us -> lreach_but i us us' -> excl us'.
Proof. intros X. induction 1; eauto using lstep_excl. Qed.
Lemma after_error_cases t : after_error t = t \/ after_error t = [].
Proof. destruct t as [|[] [|]]; cbn; auto. Qed.
Definition past (t : list lop) (u : user) : Prop :=
  us_todo u = lock_unlock ++ t \/
  (us_todo u = t /\ (us_open u = true -> us_wait u = Idle -> us_held u = Some Sh)) \/
  (length (us_todo u) < length t)%nat.
Lemma nil_past t f w h : w <> Idle \/ h = Some Sh -> past t (MkUser f true h w []).
Proof.
  intros H. destruct t as [|o t]; [right; left; cbn; split; [reflexivity|intuition congruence]|right; right; cbn; lia].
Qed.
Lemma closed_past t f w h : past t (MkUser f false h w []).
Proof. destruct t as [|o t]; [right; left; cbn; split; [reflexivity|discriminate]|right; right; cbn; lia]. Qed.
Lemma ustep_past t us i u u' : past t u -> ustep us i u u' -> past t u'.
Proof.
  intros [P|[[P H]|P]] S.
  - unfold lock_unlock in P. destruct S; cbn in P; try discriminate.
    + inversion P; subst. right. left. cbn. auto.
    + inversion P; subst. left. reflexivity.
    + inversion P; subst. right. left. cbn. auto.
    + inversion P; subst. destruct (after_error_cases t) as [-> | ->]; [right; left; cbn; split; [reflexivity|discriminate]|].
      apply nil_past. left. discriminate.
    + apply closed_past.
  - destruct S; cbn in P; subst t; cbn [us_open us_wait us_held] in H.
    all: try solve [right; right; cbn [us_todo length]; lia].
    + right. left. cbn. split; [reflexivity|discriminate].
    + destruct (after_error_cases t0) as [-> | ->]; right; right; cbn [us_todo length]; lia.
    + apply closed_past.
  - right. right. destruct S; cbn [us_todo length] in *; try lia.
    destruct (after_error_cases t0) as [-> | ->]; cbn [length]; lia.
Qed.
Lemma lreach_past t us us' i u : lreach us us' -> nth_error us i = Some u -> past t u -> exists u', nth_error us' i = Some u' /\ us_file u' = us_file u /\ past t u'.
Proof.
  induction 1 as [us|us us' us'' j R IH (v & v' & Ev & S & ->)]; intros Hi P; [eauto|].
  destruct (IH Hi P) as (w & Ew & Fw & Pw). destruct (Nat.eq_dec j i) as [->|Ne].
  - assert (v = w) as -> by congruence. exists v'. rewrite nth_error_upd_eq by (apply nth_error_Some; congruence).
    split; [reflexivity|]. split; [rewrite (ustep_file _ _ _ _ S); exact Fw|]. eapply ustep_past; eauto.
  - exists w. rewrite nth_error_upd_ne by exact Ne. auto.
Qed.
(** The user has called Unlock and it has returned without error; whatever the others do
    then, none of them has or gets an exclusive lock. *)
Theorem unlock_keeps ps us us' i u u' t : lreach (any_users ps) us -> lreach us us' ->
  nth_error us i = Some u -> us_todo u = lock_unlock ++ t ->
  nth_error us' i = Some u' -> us_todo u' = t -> us_open u' = true -> us_wait u' = Idle ->
  us_held u' = Some Sh /\
  forall us'' j v, lreach_but i us' us'' -> j <> i -> nth_error us'' j = Some v -> us_file v = us_file u ->
    us_held v <> Some Ex /\ ~ grantable us'' j (us_file u) Ex.
Proof.
  intros R R' Hi T Hi' T' O W. destruct (lreach_past t us us' i u R' Hi ltac:(left; exact T)) as (w & Ew & Fw & P).
  assert (w = u') as -> by congruence.
  assert (Hs : us_held u' = Some Sh).
  { destruct P as [P|[[_ P]|P]]; [|auto|rewrite T' in P; lia]. rewrite T' in P. apply (f_equal (@length lop)) in P. cbn in P. lia. }
  split; [exact Hs|].
  intros us'' j v B Ne Ev Fv. pose proof (lreach_trans _ _ _ R R') as R2.
  assert (X : excl us') by (eapply lreach_excl; [apply start_excl|exact R2]).
  pose proof (lreach_but_excl _ _ _ X B) as X2. pose proof (lreach_but_same _ _ _ B) as Si. rewrite Hi' in Si. split.
  - intros C. assert (us_held u' = None) by (apply (X2 j i v u'); auto; congruence). congruence.
  - intros G. specialize (G i u' ltac:(congruence) Si Fw). rewrite Hs in G. discriminate.
Qed.
Theorem close_releases us us' i u t u' : lstep i us us' -> nth_error us i = Some u -> us_todo u = OClose :: t ->
  nth_error us' i = Some u' -> us_held u' = None /\
  forall j m, (forall l v, l <> i -> l <> j -> nth_error us' l = Some v -> us_file v = us_file u -> us_held v = None) ->
    grantable us' j (us_file u) m.
Proof.
  intros (v & v' & Ev & S & ->) Hi T Hi'. assert (v = u) as -> by congruence.
  rewrite nth_error_upd_eq in Hi' by (apply nth_error_Some; congruence). assert (v' = u') as -> by congruence.
  assert (Hn : us_held u' = None) by (destruct S; cbn in *; congruence). split; [exact Hn|].
  intros j m H l v Ne El Fl. destruct (Nat.eq_dec l i) as [->|Nl].
  - rewrite nth_error_upd_eq in El by (apply nth_error_Some; congruence). assert (v = u') as -> by congruence. rewrite Hn. exact Logic.I.
  - rewrite (H l v Nl Ne El Fl). exact Logic.I.
Qed.
