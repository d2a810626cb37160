(** Who knows of which accesses: a set of claims, made of the state only, which every step
    keeps; the absence of races follows. *)
From Verif Require Import Model.Base Model.Fine.
From Verif Require Import Spec.Races.
From Verif Require Import Proof.Tactics Proof.FineInv.
Local Open Scope nat_scope.

(** Places knowledge of an event can wait: the goroutine's next step, or the next step that
    synchronises with it. *)
Inductive holder := HG (g : gid) | HMutex | HWg (rq : nat) | HClosed (j : nat).
Definition src (x : holder) (e : event) : Prop :=
  match x with
  | HG g => step_of e g \/ exists g', e = EGo g' g
  | HMutex => exists g, e = EUnlock g
  | HWg rq => exists g, e = EDone g rq
  | HClosed j => exists g, e = EClose g j
  end.
Definition gets (x : holder) (e : event) : Prop :=
  match x with
  | HG g => step_of e g
  | HMutex => exists g, e = ELock g
  | HWg rq => exists g, e = EWait g rq
  | HClosed j => exists g, e = EClosed g j
  end.
Lemma src_gets : forall x e e', src x e -> gets x e' -> orders e e'.
Proof.
  intros [g| |rq|j] e e' H H'; cbn in *.
  - destruct H as [H|[g' ->]]; [eapply Ord_program; eassumption|now apply Ord_go].
  - destruct H as [g ->], H' as [h ->]. constructor.
  - destruct H as [g ->], H' as [h ->]. constructor.
  - destruct H as [g ->], H' as [h ->]. constructor.
Qed.

Lemma hb_app : forall tr es i j, happens_before tr i j -> happens_before (tr ++ es) i j.
Proof.
  intros tr es i j H. induction H as [i j e e' L E E' O|i j k _ IH1 _ IH2]; [|eapply Hb_trans; eassumption].
  eapply Hb_one; [exact L| | |exact O]; rewrite nth_error_app1; auto; apply nth_error_Some; congruence.
Qed.

Definition kn (tr : list event) (x : holder) (i : nat) : Prop :=
  exists i' e, (i = i' \/ happens_before tr i i') /\ nth_error tr i' = Some e /\ src x e.
Definition known (tr : list event) (a : bool) (l : loc) (X : holder -> Prop) : Prop :=
  forall i g w, nth_error tr i = Some (EAcc g w l) -> a = true \/ w = true -> exists x, X x /\ kn tr x i.

Lemma kn_app : forall tr es x i, kn tr x i -> kn (tr ++ es) x i.
Proof.
  intros tr es x i (i' & e & H & E & Sr). exists i', e. split; [|split; [|exact Sr]].
  - destruct H as [H|H]; [now left|right; now apply hb_app].
  - rewrite nth_error_app1; [exact E|]. apply nth_error_Some. congruence.
Qed.
Lemma nth_end : forall A (l : list A) x, nth_error (l ++ [x]) (length l) = Some x.
Proof. intros. rewrite nth_error_app2 by lia. now rewrite Nat.sub_diag. Qed.
Lemma kn_gets_hb : forall tr x i e, kn tr x i -> gets x e -> happens_before (tr ++ [e]) i (length tr).
Proof.
  intros tr x i e (i' & e' & H & E & Sr) G.
  assert (L : i' < length tr) by (apply nth_error_Some; congruence).
  assert (Q : happens_before (tr ++ [e]) i' (length tr)).
  { eapply Hb_one; [exact L| |apply nth_end|eapply src_gets; eassumption]. now rewrite nth_error_app1. }
  destruct H as [->|H]; [exact Q|]. eapply Hb_trans; [apply hb_app, H|exact Q].
Qed.
Lemma kn_pass : forall tr x y i e, kn tr x i -> gets x e -> src y e -> kn (tr ++ [e]) y i.
Proof.
  intros tr x y i e K G Sr. exists (length tr), e. split; [|split; [apply nth_end|exact Sr]].
  right. eapply kn_gets_hb; eassumption.
Qed.

Lemma known_event : forall tr e a a' l X X', known tr a l X -> (a' = true -> a = true) ->
  (forall x, X x -> X' x \/ gets x e /\ exists y, X' y /\ src y e) ->
  (forall g w, e = EAcc g w l -> a' = true \/ w = true -> exists y, X' y /\ src y e) ->
  known (tr ++ [e]) a' l X'.
Proof.
  intros tr e a a' l X X' K A T O i g w E C.
  destruct (Nat.lt_ge_cases i (length tr)) as [L|L].
  - rewrite nth_error_app1 in E by exact L. destruct (K i g w E) as (x & Hx & Kx); [intuition|].
    destruct (T x Hx) as [H|(G & y & Hy & Sr)].
    + exists x. split; [exact H|now apply kn_app].
    + exists y. split; [exact Hy|]. eapply kn_pass; eassumption.
  - assert (i = length tr) as -> by (assert (i < length (tr ++ [e])) by (apply nth_error_Some; congruence); rewrite app_length in *; cbn in *; lia).
    rewrite nth_end in E. injection E as ->. destruct (O g w eq_refl C) as (y & Hy & Sr). exists y. split; [exact Hy|].
    exists (length tr), (EAcc g w l). split; [now left|]. split; [apply nth_end|exact Sr].
Qed.

(** No new race with the last event. *)
Lemma race_snoc : forall tr e, ~ race tr ->
  (forall i g w h w' l, nth_error tr i = Some (EAcc g w l) -> e = EAcc h w' l -> w = true \/ w' = true -> happens_before (tr ++ [e]) i (length tr)) ->
  ~ race (tr ++ [e]).
Proof.
  intros tr e NR H (i & j & g & h & w & w' & l & Nij & Ei & Ej & C & N1 & N2).
  assert (B : forall i x, nth_error (tr ++ [e]) i = Some x -> nth_error tr i = Some x \/ i = length tr /\ e = x).
  { intros k x E. destruct (Nat.lt_ge_cases k (length tr)) as [L|L]; [left; now rewrite nth_error_app1 in E|right].
    assert (k = length tr) as -> by (assert (k < length (tr ++ [e])) by (apply nth_error_Some; congruence); rewrite app_length in *; cbn in *; lia).
    rewrite nth_end in E. split; congruence. }
  destruct (B i _ Ei) as [Ei'|[-> Ei']], (B j _ Ej) as [Ej'|[-> Ej']].
  - apply NR. exists i, j, g, h, w, w', l. repeat split; auto; intros Q; [apply N1|apply N2]; now apply hb_app.
  - apply N1. eapply H; eassumption.
  - apply N2. eapply H; try eassumption. tauto.
  - congruence.
Qed.

Section RaceP.
  Context {W D P S : Type}.
  Variable work : W -> N -> D -> result (W * list (list P)).
  Variable absorb : S -> P -> S.
  Variables nw n : nat.
  Notation fstate := (@fstate W D P S).
  Notation fstep := (@fstep W D P S work absorb nw n).
  Notation fsteps := (@fsteps W D P S work absorb nw n).
  Notation fworker := (@fworker W D P).
  Notation fsender := (@fsender P).
  Notation SI := (@SI W D P S nw n).

  Definition one (g : gid) : holder -> Prop := fun x => x = HG g.
  Definition oneh (h : holder) : holder -> Prop := fun x => x = h.

  (** A request received and not yet dealt with. *)
  Definition reading_rq (w : fworker) : option nat := match w with WGot _ rq _ _ | WQuit rq | WDo _ rq _ _ => Some rq | _ => None end.
  (** ... whose posts are still the worker's. *)
  Definition posts_rq (w : fworker) : option nat :=
    match w with
    | WGot _ rq _ _ | WDo _ rq _ _ | WStore _ rq _ _ _ | WLock _ rq _ | WChk _ rq _ | WReg _ rq _ _ | WPark _ rq _ | WSpawn _ rq _ _ | WGo _ rq _ _ _ => Some rq
    | _ => None
    end.
  Definition sending_rq (g : fsender) : option nat := match g with GStart rq _ | GSend rq _ => Some rq | _ => None end.
  (** Who knows of the accesses to s.d[j] of worker k, by its sender's state. *)
  Definition batch_holder (k j : nat) (g : fsender) : holder :=
    match g with
    | GOff => HG (GWorker k)
    | GStart rq _ | GSend rq _ | GAck rq | GReset rq | GWg rq => HG (GSender rq j)
    | GEnd rq => HWg rq
    end.
  (** ... to shard j, as far as the sender is concerned. *)
  Definition shard_holder (j : nat) (g : fsender) : option holder :=
    match g with
    | GOff | GAck _ => None
    | GStart rq _ | GSend rq _ | GReset rq | GWg rq => Some (HG (GSender rq j))
    | GEnd rq => Some (HWg rq)
    end.
  Definition back_holder (j : nat) (g : fsender) : option holder :=
    match g with GReset rq | GWg rq => Some (HG (GSender rq j)) | GEnd rq => Some (HWg rq) | _ => None end.
  Definition chan_holders (s : fstate) (j : nat) : holder -> Prop := fun x =>
    x = HG (GServer j) \/ (f_closed s j = false /\ x = HG GMain) \/ (f_closed s j = true /\ f_srv s j <> SEnd /\ x = HClosed j).
  Definition shard_holders (s : fstate) (j : nat) : holder -> Prop := fun x =>
    x = HG GMain \/ (exists k, live (f_worker s k) = true /\ x = HG (GWorker k)) \/ (busy (f_srv s j) = true /\ x = HG (GServer j)) \/
    (exists k, back_holder j (f_send s k j) = Some x).

  Inductive claim (s : fstate) : bool -> loc -> (holder -> Prop) -> Prop :=
  | Cl_adder : claim s true LAdder (one GMain)
  | Cl_scratch : forall k, claim s true (LScratch k) (one (GWorker k))
  | Cl_field : forall k X, claim s false (LField k) X
  | Cl_req_fresh : forall rq X, f_count s <= rq -> claim s true (LReq rq) X
  | Cl_req_main : forall rq, main_rq (f_main s) = Some rq -> claim s false (LReq rq) (one GMain)
  | Cl_req_worker : forall k rq, reading_rq (f_worker s k) = Some rq -> claim s false (LReq rq) (one (GWorker k))
  | Cl_posts_fresh : forall rq j X, f_count s <= rq -> claim s true (LPosts rq j) X
  | Cl_posts_main : forall rq did d docs j, f_main s = FSend rq did d docs -> claim s true (LPosts rq j) (one GMain)
  | Cl_posts_worker : forall k rq j, posts_rq (f_worker s k) = Some rq -> f_send s k j = GOff -> claim s true (LPosts rq j) (one (GWorker k))
  | Cl_posts_sender : forall k j rq, sending_rq (f_send s k j) = Some rq -> claim s true (LPosts rq j) (one (GSender rq j))
  | Cl_posts_server : forall j a ps, f_srv s j = SBusy (Some a) ps -> claim s false (LPosts a j) (one (GServer j))
  | Cl_batch : forall k j, claim s true (LBatch k j) (oneh (batch_holder k j (f_send s k j)))
  | Cl_mono : claim s true LMono (oneh (match f_mutex s with Some k => HG (GWorker k) | None => HMutex end))
  | Cl_chan_read : forall j X, f_srv s j <> SStop -> claim s false (LChan j) X
  | Cl_chan : forall j, f_srv s j <> SStop -> claim s true (LChan j) (chan_holders s j)
  | Cl_shard_busy : forall j, busy (f_srv s j) = true -> claim s true (LShard j) (one (GServer j))
  | Cl_shard_send : forall k j x, shard_holder j (f_send s k j) = Some x -> claim s true (LShard j) (oneh x)
  | Cl_shard_worker : forall k j, f_mutex s = Some k -> f_send s k j = GOff -> claim s true (LShard j) (one (GWorker k))
  | Cl_shard_mutex : forall j, f_mutex s = None -> f_closer s j = COff -> claim s true (LShard j) (oneh HMutex)
  | Cl_shard_main : forall j, f_closer s j = COff -> claim s true (LShard j) (shard_holders s j)
  | Cl_shard_closer : forall j, f_closer s j <> COff -> claim s true (LShard j) (one (GCloser j)).

  (** What a step has to do for a claim made after it. *)
  Definition ob (s : fstate) (es : list event) (a' : bool) (l : loc) (X' : holder -> Prop) : Prop :=
    exists a X, claim s a l X /\ (a' = true -> a = true) /\
      match es with
      | [] => forall x, X x -> X' x
      | [e] => (forall x, X x -> X' x \/ gets x e /\ exists y, X' y /\ src y e) /\
               (forall g w, e = EAcc g w l -> a' = true \/ w = true -> exists y, X' y /\ src y e)
      | _ => False
      end.

  (** The claim held before, and its holders are the ones who access the location. *)
  Lemma ob_keep : forall s es (s' : fstate) a l X, fstep s es s' -> claim s a l X ->
    (forall g w, es = [EAcc g w l] -> a = true \/ w = true -> X (HG g)) -> ob s es a l X.
  Proof.
    intros s es s' a l X St C A. exists a, X. split; [exact C|]. split; [auto|].
    assert (L : es = [] \/ exists e, es = [e]) by (destruct St; eauto).
    destruct L as [->|[e ->]]; [auto|]. split; [auto|]. intros g w -> H. exists (HG g). split; [eapply A; [reflexivity|exact H]|]. left. reflexivity.
  Qed.
  Lemma ob_pass : forall s e a l x y, claim s a l (oneh x) -> gets x e -> src y e -> (forall g w, e <> EAcc g w l) -> ob s [e] a l (oneh y).
  Proof.
    intros s e a l x y C G Sr N. exists a, (oneh x). split; [exact C|]. split; [auto|]. split.
    - intros x' ->. right. split; [exact G|]. exists y. split; [reflexivity|exact Sr].
    - intros g w E. now apply N in E.
  Qed.
  Lemma ob_weak : forall s es (a : bool) l (X X' : holder -> Prop), ob s es true l X -> (forall x, X x -> X' x) -> ob s es a l X'.
  Proof.
    intros s es a l X X' (a0 & X0 & C & A & H) Q. exists a0, X0. split; [exact C|]. split; [auto|].
    destruct es as [|e [|]]; [auto| |exact H]. destruct H as [H1 H2]. split.
    - intros x Hx. destruct (H1 x Hx) as [|(G & y & Hy & Sr)]; [left; auto|right; eauto].
    - intros g w E C'. destruct (H2 g w E) as (y & ? & ?); eauto.
  Qed.
  Lemma ob_any : forall s es (s' : fstate) a l (X : holder -> Prop), fstep s es s' -> claim s a l (fun _ => False) ->
    (forall g w, es = [EAcc g w l] -> a = true \/ w = true -> X (HG g)) -> ob s es a l X.
  Proof.
    intros s es s' a l X St C A. exists a, (fun _ => False). split; [exact C|]. split; [auto|].
    assert (L : es = [] \/ exists e, es = [e]) by (destruct St; eauto).
    destruct L as [->|[e ->]]; [intros; contradiction|]. split; [intros; contradiction|]. intros g w -> H. exists (HG g). split; [eapply A; [reflexivity|exact H]|]. left. reflexivity.
  Qed.

  Ltac cases :=
    repeat match goal with
    | H : context [setf ?i _ _ ?j] |- _ => destruct (Nat.eq_dec j i); [subst; rewrite setf_same in *|rewrite (setf_other _ i j) in * by assumption]
    | |- context [setf ?i _ _ ?j] => destruct (Nat.eq_dec j i); [subst; rewrite setf_same in *|rewrite (setf_other _ i j) in * by assumption]
    end.
  Ltac opn := unfold set_worker, set_d, set_send, set_srv, with_main, with_next, with_count, with_workers, with_d, with_send, with_mutex, with_mono, with_srv, with_shard, with_closed, with_closer in *;
    cbn [f_main f_next f_count f_worker f_d f_send f_mutex f_mono f_srv f_shard f_closed f_closer] in *.
  Ltac flag := try match goal with H : f_worker _ _ = WReg _ _ _ ?b |- _ => destruct b end.

  (** Accesses of a step, location by location. *)
  Ltac acc St := match type of St with Fine.fstep _ _ _ _ _ ?es _ => remember es as es0 eqn:Ees end;
    destruct St; try discriminate; match goal with H : [_] = [_] |- _ => injection H; clear H end; intros; subst;
    try match goal with H : do_access _ _ _ _ _ |- _ => unfold do_access in H; destruct H as [[? ?]|[?|[[? ?]|[[? ?]|(? & ? & ? & ?)]]]] end;
    try match goal with H : (exists a', _ /\ _ /\ _) \/ _ = _ |- _ => destruct H as [(? & ? & ? & ?)|?] end;
    try discriminate; subst;
    repeat match goal with H : _ = _ :> loc |- _ => injection H; clear H; intros; subst end.

  Lemma acc_adder : forall s g w s', fstep s [EAcc g w LAdder] s' -> g = GMain.
  Proof. intros s g w s' St. acc St; reflexivity. Qed.
  Lemma acc_scratch : forall s g w s' k, fstep s [EAcc g w (LScratch k)] s' -> g = GWorker k.
  Proof. intros s g w s' k St. acc St; reflexivity. Qed.
  Lemma acc_field : forall s g w s' k, fstep s [EAcc g w (LField k)] s' -> w = false.
  Proof. intros s g w s' k St. acc St; reflexivity. Qed.
  Lemma acc_req : forall s g w s' rq, fstep s [EAcc g w (LReq rq)] s' ->
    (g = GMain /\ rq = f_count s /\ f_count s' = f_count s + 1) \/
    (w = false /\ exists k, g = GWorker k /\ reading_rq (f_worker s k) = Some rq).
  Proof.
    intros s g w s' rq St. acc St; auto; right; (split; [reflexivity|]); eexists; (split; [reflexivity|]);
    match goal with H : f_worker _ _ = _ |- _ => now rewrite H end.
  Qed.
  Lemma acc_posts : forall s g w s' a j, SI s -> fstep s [EAcc g w (LPosts a j)] s' ->
    (exists k, g = GWorker k /\ posts_rq (f_worker s k) = Some a /\ forall j, f_send s k j = GOff) \/
    (w = false /\ g = GServer j /\ exists ps, f_srv s j = SBusy (Some a) ps).
  Proof.
    intros s g w s' a j I St. acc St.
    - left. exists k. split; [reflexivity|].
      match goal with H : f_worker _ _ = _ |- _ => rename H into E end.
      split.
      + rewrite E. cbn. match goal with H : _ \/ _ |- _ => destruct H as [->|Q] end; [reflexivity|].
        apply (i_arr nw n s I) in Q as (Q & _). rewrite E in Q. discriminate.
      + intros j'. pose proof (i_send nw n s I k j') as Q. rewrite E in Q. exact Q.
    - right. split; [reflexivity|]. split; [reflexivity|]. eexists; eassumption.
  Qed.
  Lemma acc_batch : forall s g w s' k j, SI s -> fstep s [EAcc g w (LBatch k j)] s' -> HG g = batch_holder k j (f_send s k j).
  Proof.
    intros s g w s' k j I St. acc St;
    try (match goal with H : f_worker _ ?k = _ |- _ = batch_holder ?k ?j _ => pose proof (i_send nw n s I k j) as Q; rewrite H in Q; cbn [phase] in Q end).
    - now rewrite Q.
    - now rewrite Q.
    - destruct Q as [_ Q]. now rewrite Q.
    - match goal with H : f_send _ _ _ = _ |- _ => now rewrite H end.
  Qed.
  Lemma acc_mono : forall s g w s', SI s -> fstep s [EAcc g w LMono] s' -> exists k, g = GWorker k /\ f_mutex s = Some k.
  Proof.
    intros s g w s' I St. acc St; exists k; (split; [reflexivity|]); apply (i_mutex nw n s I);
    match goal with H : f_worker _ _ = _ |- _ => now rewrite H end.
  Qed.
  Lemma acc_chan : forall s g w s' j, SI s -> fstep s [EAcc g w (LChan j)] s' ->
    f_srv s j <> SStop /\ ((w = false /\ g = GMain /\ f_closed s j = false) \/ (g = GServer j /\ (w = true -> f_srv s j = SEnd /\ f_srv s' j = SStop))).
  Proof.
    intros s g w s' j I St. acc St; try (split; [congruence|]; right; split; [reflexivity|]; (discriminate || (split; [assumption|apply setf_same]))).
    match goal with H : f_main s = _ |- _ => rename H into E end.
    assert (C : f_closed s j = false).
    { destruct (f_closed s j) eqn:Q; [|reflexivity]. apply (i_closed nw n s I) in Q. rewrite E in Q. cbn in Q. lia. }
    split; [|auto]. intros Q. destruct (i_ended nw n s I j) as [R|R]; [rewrite Q; reflexivity|congruence|lia].
  Qed.
  Lemma acc_shard : forall s g w s' j, fstep s [EAcc g w (LShard j)] s' ->
    (g = GServer j /\ busy (f_srv s j) = true) \/ (g = GCloser j /\ f_closer s j = CRun).
  Proof.
    intros s g w s' j St. acc St; auto; left; (split; [reflexivity|]); match goal with H : f_srv _ _ = _ |- _ => now rewrite H end.
  Qed.

  (** Every access is allowed by a claim. *)
  Lemma access_claimed : forall s g w l s', SI s -> fstep s [EAcc g w l] s' ->
    exists a X, claim s a l X /\ (w = true -> a = true) /\ forall x, X x -> x = HG g.
  Proof.
    intros s g w l s' I St. destruct l as [|rq|k|k|k j|rq j| |j|j].
    - apply acc_adder in St as ->. exists true, (one GMain). split; [constructor|]. auto.
    - apply acc_req in St as [(-> & -> & _)|(-> & k & -> & R)].
      + exists true, (one GMain). split; [now constructor|auto].
      + exists false, (one (GWorker k)). split; [now constructor|]. split; [discriminate|auto].
    - apply acc_scratch in St as ->. exists true, (one (GWorker k)). split; [constructor|]. auto.
    - apply acc_field in St as ->. exists false, (one g). split; [constructor|]. split; [discriminate|auto].
    - apply acc_batch in St; [|exact I]. exists true, (oneh (batch_holder k j (f_send s k j))). split; [constructor|]. split; [auto|]. intros x ->. auto.
    - apply acc_posts in St as [(k & -> & R & Q)|(-> & -> & ps & Q)]; [| |exact I].
      + exists true, (one (GWorker k)). split; [now constructor|auto].
      + exists false, (one (GServer j)). split; [eapply Cl_posts_server; eassumption|]. split; [discriminate|auto].
    - apply acc_mono in St as (k & -> & M); [|exact I]. exists true, (oneh (HG (GWorker k))). split; [|auto].
      pose proof (Cl_mono s) as C. rewrite M in C. exact C.
    - apply acc_chan in St as (Ns & [(-> & -> & _)|(-> & E)]); [| |exact I].
      + exists false, (one GMain). split; [now constructor|]. split; [discriminate|auto].
      + destruct w.
        * destruct (E eq_refl) as [E' _]. clear E; rename E' into E. exists true, (chan_holders s j). split; [now constructor|]. split; [auto|].
          assert (C : f_closed s j = true) by (destruct (i_ended nw n s I j) as [Q|[_ Q]]; [now rewrite E|exact Q|congruence]).
          intros x [H|[[H ?]|(H & H' & ?)]]; [exact H|congruence|congruence].
        * exists false, (one (GServer j)). split; [now constructor|]. split; [discriminate|auto].
    - apply acc_shard in St as [(-> & B)|(-> & B)].
      + exists true, (one (GServer j)). split; [now constructor|auto].
      + exists true, (one (GCloser j)). split; [constructor; congruence|auto].
  Qed.

  Lemma count_mono : forall s es s', fstep s es s' -> f_count s <= f_count s'.
  Proof. intros s es s' St. destruct St; opn; lia. Qed.

  Lemma posts_worker_rq : forall (w : fworker) rq, posts_rq w = Some rq -> worker_rq w = Some rq.
  Proof. destruct w; cbn; congruence. Qed.
  Lemma reading_worker_rq : forall (w : fworker) rq, reading_rq w = Some rq -> worker_rq w = Some rq.
  Proof. destruct w; cbn; congruence. Qed.
  Lemma phase_worker_rq : forall (w : fworker) rq i, phase w = Some (rq, i) -> worker_rq w = Some rq.
  Proof. destruct w; cbn; congruence. Qed.
  Lemma sender_owner : forall s, SI s -> forall k j rq, sender_rq (f_send s k j) = Some rq -> worker_rq (f_worker s k) = Some rq /\ f_mutex s = Some k.
  Proof.
    intros s I k j rq E. destruct (sender_worker nw n s I k j) as (rq' & i & Ph & _ & R & M).
    - intros Q. rewrite Q in E. discriminate.
    - split; [|exact M]. apply phase_worker_rq in Ph. congruence.
  Qed.
  Lemma closer_stopped : forall s, SI s -> forall j, f_closer s j <> COff -> lives_of nw (f_main s) = 0.
  Proof. intros s I j C. apply (i_closer nw n s I) in C. destruct (f_main s); cbn in *; tauto. Qed.
  Lemma run_stopped : forall s, SI s -> forall j, f_closer s j = CRun -> lives_of nw (f_main s) = 0.
  Proof. intros s I j C. apply (closer_stopped s I j). congruence. Qed.
  Lemma closer_mono : forall s es s', fstep s es s' -> forall j, f_closer s' j = COff -> f_closer s j = COff.
  Proof. intros s es s' St j E. destruct St; opn; cases; try assumption; discriminate. Qed.
  Lemma busy_sender : forall s, SI s -> forall j, busy (f_srv s j) = true -> exists k rq, f_send s k j = GAck rq /\ f_mutex s = Some k.
  Proof.
    intros s I j B. apply (i_ack nw n s I) in B as (k & rq & E). exists k, rq. split; [exact E|].
    apply (sender_owner s I k j rq). now rewrite E.
  Qed.

  Lemma st_adder : forall s es s', fstep s es s' -> ob s es true LAdder (one GMain).
  Proof. intros s es s' St. eapply ob_keep; [exact St|constructor|]. intros g w -> _. apply acc_adder in St as ->. reflexivity. Qed.
  Lemma st_scratch : forall s es s' k, fstep s es s' -> ob s es true (LScratch k) (one (GWorker k)).
  Proof. intros s es s' k St. eapply ob_keep; [exact St|constructor|]. intros g w -> _. apply acc_scratch in St as ->. reflexivity. Qed.
  Lemma st_field : forall s es s' k X, fstep s es s' -> ob s es false (LField k) X.
  Proof. intros s es s' k X St. eapply ob_keep; [exact St|constructor|]. intros g w -> H. apply acc_field in St as ->. destruct H; discriminate. Qed.
  Lemma st_req_fresh : forall s es s' rq X, SI s -> fstep s es s' -> f_count s' <= rq -> ob s es true (LReq rq) X.
  Proof.
    intros s es s' rq X I St L. pose proof (count_mono _ _ _ St). eapply ob_any; [exact St|constructor; lia|].
    intros g w -> _. apply acc_req in St as [(-> & -> & E)|(-> & k & -> & R)]; [lia|].
    apply reading_worker_rq, (i_fresh nw n s I) in R. lia.
  Qed.
  Lemma st_req_main : forall s es s' rq, SI s -> fstep s es s' -> main_rq (f_main s') = Some rq -> ob s es false (LReq rq) (one GMain).
  Proof.
    intros s es s' rq I St E.
    assert (C : main_rq (f_main s) = Some rq \/ es = [EAcc GMain true (LReq rq)] /\ rq = f_count s).
    { destruct St; opn; auto; cbn [main_rq] in E; try discriminate; right; injection E as <-; auto. }
    destruct C as [C|[C1 C2]].
    - eapply ob_keep; [exact St|now constructor|]. intros g w -> H. apply acc_req in St as [(-> & -> & _)|(-> & _)].
      + reflexivity.
      + destruct H; discriminate.
    - apply ob_weak with (X := one GMain); [|auto]. eapply ob_any; [exact St|constructor; lia|]. intros g w H _. rewrite C1 in H. injection H as <- _. reflexivity.
  Qed.
  Lemma st_req_worker : forall s es s' k rq, SI s -> fstep s es s' -> reading_rq (f_worker s' k) = Some rq -> ob s es false (LReq rq) (one (GWorker k)).
  Proof.
    intros s es s' k rq I St E.
    assert (C : reading_rq (f_worker s k) = Some rq \/ es = [EMeet GMain (GWorker k)] /\ main_rq (f_main s) = Some rq).
    { destruct St; flag; opn; auto; cases; auto; cbn [reading_rq] in E; try discriminate;
        try (left; rewrite H; exact E); try (right; split; [reflexivity|]; rewrite H; exact E).
      left. destruct (f_worker s k) eqn:Q; cbn in *; auto. }
    destruct C as [C|[-> C]].
    - eapply ob_keep; [exact St|now constructor|]. intros g w -> H. apply acc_req in St as [(-> & -> & _)|(-> & _)].
      + apply reading_worker_rq, (i_fresh nw n s I) in C. lia.
      + destruct H; discriminate.
    - eapply (ob_pass s _ false _ (HG GMain)); [now apply Cl_req_main|now left|left; now right|discriminate].
  Qed.

  Lemma st_posts_fresh : forall s es s' rq j X, SI s -> fstep s es s' -> f_count s' <= rq -> ob s es true (LPosts rq j) X.
  Proof.
    intros s es s' rq j X I St L. pose proof (count_mono _ _ _ St). eapply ob_any; [exact St|constructor; lia|].
    intros g w -> _. apply acc_posts in St as [(k & -> & R & _)|(-> & -> & ps & E)]; [| |exact I].
    - apply posts_worker_rq, (i_fresh nw n s I) in R. lia.
    - apply (i_sarr nw n s I) in E as [k E]. destruct (sender_owner s I k j rq) as [R _]; [now rewrite E|].
      apply (i_fresh nw n s I) in R. lia.
  Qed.
  Lemma st_posts_main : forall s es s' rq did d docs j, SI s -> fstep s es s' -> f_main s' = FSend rq did d docs -> ob s es true (LPosts rq j) (one GMain).
  Proof.
    intros s es s' rq did d docs j I St E.
    assert (C : f_main s = FSend rq did d docs \/ rq = f_count s).
    { destruct St; opn; auto; try discriminate; right; injection E as <-; auto. }
    assert (A : forall g w, es = [EAcc g w (LPosts rq j)] -> True -> one GMain (HG g)).
    { intros g w -> _. exfalso. apply acc_posts in St as [(k & -> & R & _)|(-> & -> & ps & Q)]; [| |exact I].
      - apply posts_worker_rq in R. destruct C as [C| ->].
        + apply (i_uniq_main nw n s I) in R. rewrite C in R. now apply R.
        + apply (i_fresh nw n s I) in R. lia.
      - apply (i_sarr nw n s I) in Q as [k Q]. destruct (sender_owner s I k j rq) as [R _]; [now rewrite Q|]. destruct C as [C| ->].
        + apply (i_uniq_main nw n s I) in R. rewrite C in R. now apply R.
        + apply (i_fresh nw n s I) in R. lia. }
    destruct C as [C|C].
    - eapply ob_keep; [exact St|eapply Cl_posts_main; eassumption|]. intros g w H _. eauto.
    - eapply ob_any; [exact St|constructor; lia|]. intros g w H _. eauto.
  Qed.
  Lemma st_posts_worker : forall s es s' k rq j, SI s -> fstep s es s' -> posts_rq (f_worker s' k) = Some rq -> f_send s' k j = GOff ->
    ob s es true (LPosts rq j) (one (GWorker k)).
  Proof.
    intros s es s' k rq j I St E E'.
    assert (C : posts_rq (f_worker s k) = Some rq /\ f_send s k j = GOff \/
                es = [EMeet GMain (GWorker k)] /\ exists did d docs, f_main s = FSend rq did d docs).
    { destruct St; flag; opn; auto; cases; auto; cbn [posts_rq] in E; try discriminate;
        try (left; rewrite H; split; [exact E|assumption]).
      - right. split; [reflexivity|]. injection E as ->. eauto.
      - left. split; [|exact E']. destruct (f_worker s k) eqn:Q; cbn in *; auto. }
    destruct C as [[C C']|[-> (did & d & docs & C)]].
    - eapply ob_keep; [exact St|now constructor|]. intros g w -> _. apply acc_posts in St as [(k' & -> & R & _)|(-> & -> & ps & Q)]; [| |exact I].
      + assert (k' = k) as -> by (apply (i_uniq nw n s I k' k rq); now apply posts_worker_rq). reflexivity.
      + exfalso. apply (i_sarr nw n s I) in Q as [k' Q]. destruct (sender_owner s I k' j rq) as [R _]; [now rewrite Q|].
        assert (k' = k) as -> by (apply (i_uniq nw n s I k' k rq); [assumption|now apply posts_worker_rq]). congruence.
    - eapply (ob_pass s _ true _ (HG GMain)); [eapply Cl_posts_main; eassumption|now left|left; now right|discriminate].
  Qed.
  Lemma st_posts_sender : forall s es s' k j rq, SI s -> fstep s es s' -> sending_rq (f_send s' k j) = Some rq -> ob s es true (LPosts rq j) (one (GSender rq j)).
  Proof.
    intros s es s' k j rq I St E.
    assert (C : sending_rq (f_send s k j) = Some rq \/
                es = [EGo (GWorker k) (GSender rq j)] /\ posts_rq (f_worker s k) = Some rq /\ f_send s k j = GOff).
    { destruct St; opn; auto; cases; auto; cbn [sending_rq] in E; try discriminate; try (left; rewrite H; exact E).
      right. injection E as ->. split; [reflexivity|]. rewrite H. split; [reflexivity|].
      pose proof (i_send nw n s I k0 i) as Q. rewrite H in Q. now apply Q. }
    destruct C as [C|(-> & C & C')].
    - eapply ob_keep; [exact St|eapply Cl_posts_sender; exact C|]. intros g w -> _. exfalso.
      assert (R : sender_rq (f_send s k j) = Some rq) by (destruct (f_send s k j); cbn in *; congruence).
      destruct (sender_owner s I k j rq R) as [R' _].
      apply acc_posts in St as [(k' & -> & R2 & Off)|(-> & -> & ps & Q)]; [| |exact I].
      + assert (k' = k) as -> by (apply (i_uniq nw n s I k' k rq); [now apply posts_worker_rq|assumption]). rewrite Off in C. discriminate.
      + apply (i_sarr nw n s I) in Q as [k' Q].
        assert (k' = k) as -> by (apply (sender_unique nw n s I k' k j j); [congruence|intros Z; rewrite Z in C; discriminate]). rewrite Q in C. discriminate.
    - eapply (ob_pass s _ true _ (HG (GWorker k))); [now apply Cl_posts_worker|reflexivity|right; eauto|discriminate].
  Qed.
  Lemma st_posts_server : forall s es s' j a ps, SI s -> fstep s es s' -> f_srv s' j = SBusy (Some a) ps -> ob s es false (LPosts a j) (one (GServer j)).
  Proof.
    intros s es s' j a ps I St E.
    assert (C : (exists ps', f_srv s j = SBusy (Some a) ps') \/
                es = [EMeet (GSender a j) (GServer j)] /\ exists k, sending_rq (f_send s k j) = Some a).
    { destruct St; opn; eauto; cases; eauto; try discriminate.
      - right. injection E as E1 E2. assert (a = rq) as -> by (eapply (i_slice nw n s I k j0 rq ps0); [now rewrite H|exact E1]).
        split; [reflexivity|]. exists k. now rewrite H.
      - injection E as -> ->. eauto. }
    destruct C as [[ps' C]|[-> [k C]]].
    - eapply ob_keep; [exact St|eapply Cl_posts_server; exact C|]. intros g w -> H. exfalso.
      apply (i_sarr nw n s I) in C as [k C]. destruct (sender_owner s I k j a) as [R _]; [now rewrite C|].
      apply acc_posts in St as [(k' & -> & R2 & Off)|(-> & _)]; [| |exact I].
      + assert (k' = k) as -> by (apply (i_uniq nw n s I k' k a); [now apply posts_worker_rq|assumption]). rewrite Off in C. discriminate.
      + destruct H; discriminate.
    - apply ob_weak with (X := oneh (HG (GServer j))); [|auto].
      eapply (ob_pass s _ true _ (HG (GSender a j))); [eapply Cl_posts_sender; exact C|now left|left; now right|discriminate].
  Qed.

  Lemma st_batch : forall s es s' k j, SI s -> fstep s es s' -> ob s es true (LBatch k j) (oneh (batch_holder k j (f_send s' k j))).
  Proof.
    intros s es s' k j I St.
    assert (C : batch_holder k j (f_send s' k j) = batch_holder k j (f_send s k j) \/
      exists e, es = [e] /\ gets (batch_holder k j (f_send s k j)) e /\ src (batch_holder k j (f_send s' k j)) e /\ forall g w l, e <> EAcc g w l).
    { destruct St; opn; auto; cases; auto; try (left; rewrite H; reflexivity).
      - (* FsSpawn *) right. eexists. split; [reflexivity|]. pose proof (i_send nw n s I k0 i) as Q. rewrite H in Q. cbn [phase] in Q.
        destruct Q as [_ Q]. rewrite (Q (le_n i)). cbn. split; [reflexivity|]. split; [right; eauto|discriminate].
      - (* FsWait *) pose proof (i_send nw n s I k0 j) as Q. rewrite H in Q. cbn [phase] in Q. destruct Q as [Q1 Q2].
        destruct (Nat.lt_ge_cases j n) as [L|L]; [|left; now rewrite (Q2 L)]. specialize (Q1 L). destruct (H0 j L) as [r Z]. rewrite Z in *.
        injection Q1 as ->. right. eexists. split; [reflexivity|]. cbn. split; [eauto|]. split; [now left|discriminate].
      - (* FsSteal *) left. rewrite H0. reflexivity.
      - (* FsWg *) right. eexists. split; [reflexivity|]. rewrite H. cbn. split; [reflexivity|]. split; [eauto|discriminate]. }
    destruct C as [C|(e & -> & G & Sr & N)].
    - rewrite C. eapply ob_keep; [exact St|constructor|]. intros g w -> _. apply acc_batch in St; [|exact I]. exact St.
    - eapply ob_pass; [apply Cl_batch|exact G|exact Sr|auto].
  Qed.

  Lemma st_mono : forall s es s', SI s -> fstep s es s' -> ob s es true LMono (oneh (match f_mutex s' with Some k => HG (GWorker k) | None => HMutex end)).
  Proof.
    intros s es s' I St.
    assert (C : f_mutex s' = f_mutex s \/
      exists e, es = [e] /\ gets (match f_mutex s with Some k => HG (GWorker k) | None => HMutex end) e /\
        src (match f_mutex s' with Some k => HG (GWorker k) | None => HMutex end) e /\ forall g w l, e <> EAcc g w l).
    { destruct St; opn; auto; right; eexists; (split; [reflexivity|]).
      - rewrite H0. cbn. split; [eauto|]. split; [now left|discriminate].
      - replace (f_mutex s) with (Some k) by (symmetry; apply (i_mutex nw n s I); now rewrite H). cbn. split; [reflexivity|]. split; [eauto|discriminate].
      - replace (f_mutex s) with (Some k) by (symmetry; apply (i_mutex nw n s I); now rewrite H). cbn. split; [reflexivity|]. split; [eauto|discriminate]. }
    destruct C as [C|(e & -> & G & Sr & N)].
    - rewrite C. eapply ob_keep; [exact St|constructor|]. intros g w -> _. apply acc_mono in St as (k & -> & M); [|exact I]. rewrite M. reflexivity.
    - eapply ob_pass; [apply Cl_mono|exact G|exact Sr|auto].
  Qed.

  Lemma stop_stays : forall s es s', fstep s es s' -> forall j, f_srv s' j <> SStop -> f_srv s j <> SStop.
  Proof. intros s es s' St j N E. apply N. destruct St; opn; cases; auto; congruence. Qed.
  Lemma st_chan_read : forall s es s' j X, SI s -> fstep s es s' -> f_srv s' j <> SStop -> ob s es false (LChan j) X.
  Proof.
    intros s es s' j X I St N. eapply ob_any; [exact St|constructor; eapply stop_stays; eassumption|].
    intros g w -> H. exfalso. apply acc_chan in St as [_ [(-> & _)|(_ & Q)]]; [| |exact I].
    - destruct H; discriminate.
    - destruct w; [now destruct Q|destruct H; discriminate].
  Qed.
  Lemma st_chan : forall s es s' j, SI s -> fstep s es s' -> f_srv s' j <> SStop -> ob s es true (LChan j) (chan_holders s' j).
  Proof.
    intros s es s' j I St N. pose proof (stop_stays _ _ _ St j N) as N0.
    exists true, (chan_holders s j). split; [now constructor|]. split; [auto|].
    assert (Open : f_closed s j = false -> f_srv s j <> SEnd).
    { intros C E. destruct (i_ended nw n s I j) as [Q|[_ Q]]; [now rewrite E|congruence|congruence]. }
    assert (Acc : forall g w, es = [EAcc g w (LChan j)] -> exists y, chan_holders s' j y /\ src y (EAcc g w (LChan j))).
    { intros g w ->. exists (HG g). split; [|left; reflexivity]. assert (St' := St). apply acc_chan in St as [_ [(-> & -> & C)|(-> & _)]]; [| |exact I].
      - right; left. split; [|reflexivity]. clear - St' C. remember [EAcc GMain false (LChan j)] as es. destruct St'; try discriminate; opn; assumption.
      - left. reflexivity. }
    assert (T : match es with [] => forall x, chan_holders s j x -> chan_holders s' j x
                | [e] => forall x, chan_holders s j x -> chan_holders s' j x \/ gets x e /\ exists y, chan_holders s' j y /\ src y e | _ => False end).
    { unfold chan_holders in *. clear Acc. destruct St; opn; auto; intros x Hx.
      - (* FsChanClose *) destruct (Nat.eq_dec j j0) as [->|Nj]; [rewrite setf_same|rewrite setf_other by assumption; auto].
        destruct Hx as [->|[[C ->]|(C & C' & ->)]]; [now left; left| |left; right; right; auto].
        right. split; [reflexivity|]. exists (HClosed j0). split; [right; right; auto|eexists; reflexivity].
      - (* FsPost *) destruct (Nat.eq_dec j j0) as [->|Nj]; [rewrite setf_same in *|rewrite setf_other in * by assumption; auto].
        left. intuition discriminate.
      - destruct (Nat.eq_dec j j0) as [->|Nj]; [rewrite setf_same in *|rewrite setf_other in * by assumption; auto].
        left. intuition discriminate.
      - destruct (Nat.eq_dec j j0) as [->|Nj]; [rewrite setf_same in *|rewrite setf_other in * by assumption; auto].
        left. intuition discriminate.
      - (* FsSrvClosed *) destruct (Nat.eq_dec j j0) as [->|Nj]; [rewrite setf_same in *|rewrite setf_other in * by assumption; auto].
        destruct Hx as [->|[[C ->]|(C & C' & ->)]]; [now left; left|congruence|].
        right. split; [eexists; reflexivity|]. exists (HG (GServer j0)). split; [auto|left; reflexivity].
      - (* FsSrvEnd *) destruct (Nat.eq_dec j j0) as [->|Nj]; [rewrite setf_same in *; congruence|rewrite setf_other in * by assumption; auto].
      - destruct (Nat.eq_dec j j0) as [->|Nj]; [rewrite setf_same in *|rewrite setf_other in * by assumption; auto].
        left. intuition discriminate.
      - destruct (Nat.eq_dec j j0) as [->|Nj]; [rewrite setf_same in *|rewrite setf_other in * by assumption; auto].
        left. intuition discriminate. }
    destruct es as [|e [|]]; [exact T| |exact T]. split; [exact T|]. intros g w -> _. now apply Acc.
  Qed.

  Lemma st_shard_busy : forall s es s' j, SI s -> fstep s es s' -> busy (f_srv s' j) = true -> ob s es true (LShard j) (one (GServer j)).
  Proof.
    intros s es s' j I St B.
    assert (C : busy (f_srv s j) = true \/ exists k rq, es = [EMeet (GSender rq j) (GServer j)] /\ shard_holder j (f_send s k j) = Some (HG (GSender rq j))).
    { destruct St; opn; auto; cases; auto; try discriminate.
      - right. exists k, rq. split; [reflexivity|]. now rewrite H.
      - left. now rewrite H.
      - left. now rewrite H. }
    destruct C as [C|(k & rq & -> & C)].
    - eapply ob_keep; [exact St|now constructor|]. intros g w -> _. apply acc_shard in St as [(-> & _)|(-> & R)]; [reflexivity|].
      destruct (stopped_quiet nw n s I (run_stopped s I j R)) as (_ & _ & Q). rewrite Q in C. discriminate.
    - eapply (ob_pass s _ true _ (HG (GSender rq j))); [eapply Cl_shard_send; exact C|now left|left; now right|discriminate].
  Qed.
  Lemma st_shard_send : forall s es s' k j x, SI s -> fstep s es s' -> shard_holder j (f_send s' k j) = Some x -> ob s es true (LShard j) (oneh x).
  Proof.
    intros s es s' k j x I St E.
    assert (C : shard_holder j (f_send s k j) = Some x \/
      exists e y, es = [e] /\ claim s true (LShard j) (oneh y) /\ gets y e /\ src x e /\ forall g w l, e <> EAcc g w l).
    { destruct St; opn; auto; cases; auto; cbn [shard_holder] in E; try discriminate; try (left; rewrite H; exact E); try (injection E as <-).
      - (* FsSpawn *) right. eexists _, (HG (GWorker k0)). split; [reflexivity|]. split.
        + apply Cl_shard_worker; [apply (i_mutex nw n s I); now rewrite H|]. pose proof (i_send nw n s I k0 i) as Q. rewrite H in Q. now apply Q.
        + split; [reflexivity|]. split; [right; eauto|discriminate].
      - (* FsSteal *) exfalso. apply H1. apply (sender_unique nw n s I k0 k' j0 j0); congruence.
      - (* FsAck *) right. eexists _, (HG (GServer j0)). split; [reflexivity|]. split.
        + apply Cl_shard_busy. now rewrite H0.
        + split; [now left|]. split; [left; now right|discriminate].
      - (* FsAckClosed *) exfalso. destruct (stopped_quiet nw n s I (closed_stopped nw n s I j0 H0)) as (_ & Q & _). rewrite Q in H. discriminate.
      - (* FsWg *) right. eexists _, (HG (GSender rq j0)). split; [reflexivity|]. split.
        + eapply Cl_shard_send with (k := k0). now rewrite H.
        + split; [reflexivity|]. split; [eexists; reflexivity|discriminate]. }
    destruct C as [C|(e & y & -> & Cl & G & Sr & N)].
    - eapply ob_keep; [exact St|eapply Cl_shard_send; exact C|]. intros g w -> _. exfalso.
      apply acc_shard in St as [(-> & B)|(-> & R)].
      + destruct (busy_sender s I j B) as (k' & rq & Q & _).
        assert (k' = k) as -> by (apply (sender_unique nw n s I k' k j j); [congruence|intros Z; rewrite Z in C; discriminate]). rewrite Q in C. discriminate.
      + destruct (stopped_quiet nw n s I (run_stopped s I j R)) as (_ & Q & _). rewrite Q in C. discriminate.
    - eapply ob_pass; [exact Cl|exact G|exact Sr|auto].
  Qed.
  Lemma st_shard_worker : forall s es s' k j, SI s -> fstep s es s' -> f_mutex s' = Some k -> f_send s' k j = GOff -> ob s es true (LShard j) (one (GWorker k)).
  Proof.
    intros s es s' k j I St M E.
    assert (C : f_mutex s = Some k /\ f_send s k j = GOff \/
      exists e y, es = [e] /\ claim s true (LShard j) (oneh y) /\ gets y e /\ src (HG (GWorker k)) e /\ forall g w l, e <> EAcc g w l).
    { destruct St; opn; auto; cases; auto; try discriminate.
      - (* FsLock *) injection M as ->. right. eexists _, HMutex. split; [reflexivity|]. split.
        + apply Cl_shard_mutex; [assumption|]. destruct (f_closer s j) eqn:R; [reflexivity| |];
            (exfalso; pose proof (all_stopped nw n s I (closer_stopped s I j ltac:(congruence)) k) as Q; rewrite H in Q; discriminate).
        + split; [eexists; reflexivity|]. split; [left; reflexivity|discriminate].
      - (* FsWait *) pose proof (i_send nw n s I k0 j) as Q. rewrite H in Q. cbn [phase] in Q. destruct Q as [Q1 Q2].
        destruct (Nat.lt_ge_cases j n) as [L|L]; [|left; auto]. specialize (Q1 L). destruct (H0 j L) as [r Z]. rewrite Z in Q1. injection Q1 as ->.
        right. eexists _, (HWg rq). split; [reflexivity|]. split; [eapply Cl_shard_send with (k := k0); now rewrite Z|].
        split; [eexists; reflexivity|]. split; [left; reflexivity|discriminate]. }
    destruct C as [[C C']|(e & y & -> & Cl & G & Sr & N)].
    - eapply ob_keep; [exact St|now constructor|]. intros g w -> _. exfalso.
      apply acc_shard in St as [(-> & B)|(-> & R)].
      + destruct (busy_sender s I j B) as (k' & rq & Q & M'). assert (k' = k) as -> by congruence. congruence.
      + destruct (stopped_quiet nw n s I (run_stopped s I j R)) as (Q & _). congruence.
    - eapply ob_pass; [exact Cl|exact G|exact Sr|auto].
  Qed.
  Lemma st_shard_mutex : forall s es s' j, SI s -> fstep s es s' -> f_mutex s' = None -> f_closer s' j = COff -> ob s es true (LShard j) (oneh HMutex).
  Proof.
    intros s es s' j I St M E. pose proof (closer_mono _ _ _ St j E) as E0.
    assert (C : f_mutex s = None \/ exists k, es = [EUnlock (GWorker k)] /\ f_mutex s = Some k /\ f_send s k j = GOff).
    { destruct St; opn; auto; try discriminate;
      (right; exists k; split; [reflexivity|]; split; [apply (i_mutex nw n s I); now rewrite H|]; pose proof (i_send nw n s I k j) as Q; rewrite H in Q; exact Q). }
    destruct C as [C|(k & -> & C & C')].
    - eapply ob_keep; [exact St|now constructor|]. intros g w -> _. exfalso.
      apply acc_shard in St as [(-> & B)|(-> & R)]; [|congruence].
      destruct (busy_sender s I j B) as (k' & rq & Q & M'). congruence.
    - eapply (ob_pass s _ true _ (HG (GWorker k))); [now apply Cl_shard_worker|reflexivity|eexists; reflexivity|discriminate].
  Qed.
  Lemma st_shard_closer : forall s es s' j, SI s -> fstep s es s' -> f_closer s' j <> COff -> ob s es true (LShard j) (one (GCloser j)).
  Proof.
    intros s es s' j I St N.
    assert (C : f_closer s j <> COff \/ es = [EGo GMain (GCloser j)] /\ f_closer s j = COff /\ lives_of nw (f_main s) = 0).
    { destruct St; opn; auto; cases; auto.
      - right. split; [reflexivity|]. split; [|now rewrite H].
        pose proof (i_closer nw n s I j0) as Q. rewrite H in Q. destruct (f_closer s j0); [reflexivity| |]; (exfalso; assert (j0 < j0) by (apply Q; discriminate); lia).
      - left. congruence. }
    destruct C as [C|(-> & C & L)].
    - eapply ob_keep; [exact St|now constructor|]. intros g w -> _.
      apply acc_shard in St as [(-> & B)|(-> & R)]; [|reflexivity].
      destruct (stopped_quiet nw n s I (closer_stopped s I j C)) as (_ & _ & Q). rewrite Q in B. discriminate.
    - exists true, (shard_holders s j). split; [now constructor|]. split; [auto|]. split; [|discriminate].
      intros x Hx. right. destruct (stopped_quiet nw n s I L) as (_ & Q & B). pose proof (all_stopped nw n s I L) as Al.
      destruct Hx as [->|[(k & Lk & _)|[(Bj & _)|(k & Bk)]]].
      + split; [reflexivity|]. exists (HG (GCloser j)). split; [reflexivity|]. right. eauto.
      + rewrite Al in Lk. discriminate.
      + rewrite B in Bj. discriminate.
      + rewrite Q in Bk. discriminate.
  Qed.
  Lemma shard_mono : forall s s' j, (forall k, live (f_worker s k) = true -> live (f_worker s' k) = true) ->
    (busy (f_srv s j) = true -> busy (f_srv s' j) = true) ->
    (forall k x, back_holder j (f_send s k j) = Some x -> back_holder j (f_send s' k j) = Some x) ->
    forall x, shard_holders s j x -> shard_holders s' j x.
  Proof.
    intros s s' j L B H x [->|[(k & Lk & ->)|[(Bj & ->)|(k & Bk)]]].
    - now left.
    - right; left. exists k. auto.
    - right; right; left. auto.
    - right; right; right. exists k. auto.
  Qed.
  Lemma st_shard_main : forall s es s' j, SI s -> fstep s es s' -> f_closer s' j = COff -> ob s es true (LShard j) (shard_holders s' j).
  Proof.
    intros s es s' j I St E. pose proof (closer_mono _ _ _ St j E) as E0.
    exists true, (shard_holders s j). split; [now constructor|]. split; [auto|].
    assert (Acc : forall g w, es = [EAcc g w (LShard j)] -> exists y, shard_holders s' j y /\ src y (EAcc g w (LShard j))).
    { intros g w ->. exists (HG g). split; [|left; reflexivity]. assert (St' := St). apply acc_shard in St as [(-> & B)|(-> & R)]; [|congruence].
      right; right; left. split; [|reflexivity]. remember [EAcc (GServer j) w (LShard j)] as es. clear - St' B Heqes. destruct St'; try discriminate; opn; auto; cases; auto; congruence. }
    assert (T : match es with [] => forall x, shard_holders s j x -> shard_holders s' j x
                | [e] => forall x, shard_holders s j x -> shard_holders s' j x \/ gets x e /\ exists y, shard_holders s' j y /\ src y e | _ => False end).
    { clear Acc. destruct St; flag; opn;
      try (intros x Hx; match goal with |- _ \/ gets _ _ /\ _ => left | _ => idtac end; revert x Hx; apply shard_mono; opn; intros; cases; rewrite ?live_fwake; auto; try reflexivity; try discriminate;
           match goal with H : _ = Some _ |- _ => rewrite H in *; first [discriminate|assumption|reflexivity] | H : f_srv _ _ = _ |- _ => rewrite H in *; first [discriminate|assumption|reflexivity] end).
      - (* FsStopGive *) intros x [->|[(k0 & Lk & ->)|[(Bj & ->)|(k0 & Bk)]]]; [left; now left| |left; right; right; left; auto|left; right; right; right; exists k0; exact Bk].
        destruct (Nat.eq_dec k0 k') as [->|Nk].
        + right. split; [now right|]. exists (HG GMain). split; [now left|left; now left].
        + left; right; left. exists k0. opn. rewrite setf_other by assumption. auto.
      - (* FsQuit *) intros x Hx; left; revert x Hx; apply shard_mono; opn; auto. intros k0 Lk. cases; [rewrite H in Lk; discriminate|assumption].
      - (* FsSpawn *) intros x Hx; left; revert x Hx; apply shard_mono; opn; auto.
        + intros k0 Lk. cases; [reflexivity|assumption].
        + intros k0 x Q. pose proof (i_send nw n s I k i) as Z. rewrite H in Z. cbn [phase] in Z. destruct Z as [_ Z]. specialize (Z (le_n i)).
          cases; try assumption. rewrite Z in Q. discriminate.
      - (* FsWait *) intros x [->|[(k0 & Lk & ->)|[(Bj & ->)|(k0 & Bk)]]]; [left; now left| |left; right; right; left; auto|].
        + left; right; left. exists k0. opn. split; [|reflexivity]. cases; [reflexivity|assumption].
        + destruct (Nat.eq_dec k0 k) as [->|Nk]; [|left; right; right; right; exists k0; opn; now rewrite setf_other].
          pose proof (i_send nw n s I k j) as Q. rewrite H in Q. cbn [phase] in Q. destruct Q as [Q1 Q2].
          destruct (Nat.lt_ge_cases j n) as [L|L]; [|rewrite (Q2 L) in Bk; discriminate]. specialize (Q1 L). destruct (H0 j L) as [r Z]. rewrite Z in *.
          injection Q1 as ->. cbn in Bk. injection Bk as <-. right. split; [eexists; reflexivity|]. exists (HG (GWorker k)).
          split; [|left; reflexivity]. right; left. exists k. opn. rewrite setf_same. auto.
      - (* FsStart *) intros x Hx; left; revert x Hx; apply shard_mono; opn; auto. intros k0 x Q. cases; try assumption. rewrite H in Q. discriminate.
      - (* FsPost *) intros x Hx; left; revert x Hx; apply shard_mono; opn; auto.
        + intros B. cases; [reflexivity|assumption].
        + intros k0 x Q. cases; try assumption. rewrite H in Q. discriminate.
      - (* FsSteal *) exfalso. apply H1. apply (sender_unique nw n s I k k' j0 j0); congruence.
      - (* FsAck *) intros x [->|[(k0 & Lk & ->)|[(Bj & ->)|(k0 & Bk)]]]; [left; now left|left; right; left; exists k0; auto| |].
        + destruct (Nat.eq_dec j j0) as [->|Nj]; [|left; right; right; left; opn; rewrite setf_other; auto].
          right. split; [now left|]. exists (HG (GSender rq j0)). split; [|left; now right]. right; right; right. exists k. opn. now rewrite !setf_same.
        + left; right; right; right. exists k0. opn. cases; try assumption. rewrite H in Bk. discriminate.
      - (* FsAckClosed *) destruct (stopped_quiet nw n s I (closed_stopped nw n s I j0 H0)) as (_ & Q & _). rewrite Q in H. discriminate.
      - (* FsReset *) intros x Hx; left; revert x Hx; apply shard_mono; opn; auto. intros k0 x Q. cases; try assumption. rewrite H in Q. exact Q.
      - (* FsWg *) intros x [->|[(k0 & Lk & ->)|[(Bj & ->)|(k0 & Bk)]]]; [left; now left|left; right; left; exists k0; auto|left; right; right; left; auto|].
        destruct (Nat.eq_dec k0 k) as [->|Nk]; [|left; right; right; right; exists k0; opn; now rewrite setf_other].
        destruct (Nat.eq_dec j j0) as [->|Nj]; [|left; right; right; right; exists k; opn; rewrite setf_same; now rewrite setf_other].
        rewrite H in Bk. cbn in Bk. injection Bk as <-. right. split; [reflexivity|]. exists (HWg rq). split; [|eexists; reflexivity].
        right; right; right. exists k. opn. now rewrite !setf_same. }
    destruct es as [|e [|]]; [exact T| |exact T]. split; [exact T|]. intros g w -> _. now apply Acc.
  Qed.

  Theorem claim_step : forall s es s' a l X, SI s -> fstep s es s' -> claim s' a l X -> ob s es a l X.
  Proof.
    intros s es s' a l X I St C. destruct C.
    - eapply st_adder; eassumption.
    - eapply st_scratch; eassumption.
    - eapply st_field; eassumption.
    - eapply st_req_fresh; eassumption.
    - eapply st_req_main; eassumption.
    - eapply st_req_worker; eassumption.
    - eapply st_posts_fresh; eassumption.
    - eapply st_posts_main; eassumption.
    - eapply st_posts_worker; eassumption.
    - eapply st_posts_sender; eassumption.
    - eapply st_posts_server; eassumption.
    - eapply st_batch; eassumption.
    - eapply st_mono; eassumption.
    - eapply st_chan_read; eassumption.
    - eapply st_chan; eassumption.
    - eapply st_shard_busy; eassumption.
    - eapply st_shard_send; eassumption.
    - eapply st_shard_worker; eassumption.
    - eapply st_shard_mutex; eassumption.
    - eapply st_shard_main; eassumption.
    - eapply st_shard_closer; eassumption.
  Qed.

  Theorem no_race : forall docs last ws shards s0 tr s, length ws = nw ->
    fsteps (fstart n docs last ws shards s0) tr s ->
    SI s /\ (forall a l X, claim s a l X -> known tr a l X) /\ ~ race tr.
  Proof.
    intros docs last ws shards s0 tr s Lw H. remember (fstart n docs last ws shards s0) as st0 eqn:E0.
    induction H as [st|st1 tr st2 es st3 H IH St].
    - subst st. split; [now apply si_start|]. split.
      + intros a l X _ i g w E. destruct i; discriminate.
      + intros (i & j & g & h & w & w' & l & _ & E & _). destruct i; discriminate.
    - destruct (IH E0) as (I & K & R). split; [eapply si_step; eassumption|]. split.
      + intros a l X C. apply (claim_step st2 es st3 a l X I St) in C as (a0 & X0 & C & A & T).
        apply K in C. destruct es as [|e [|]]; [| |contradiction].
        * rewrite app_nil_r. intros i g w E Q. destruct (C i g w E) as (x & Hx & Kx); [intuition|]. exists x. auto.
        * destruct T as [T1 T2]. eapply known_event; eassumption.
      + assert (L : es = [] \/ exists e, es = [e]) by (destruct St; eauto). destruct L as [->|[e ->]]; [now rewrite app_nil_r|].
        apply race_snoc; [exact R|]. intros i g w h w' l E -> Q.
        destruct (access_claimed _ _ _ _ _ I St) as (a & X & C & A & O). apply K in C. destruct (C i g w E) as (x & Hx & Kx).
        { destruct Q as [->| ->]; [now right|left; auto]. }
        apply O in Hx as ->. eapply kn_gets_hb; [exact Kx|reflexivity].
  Qed.
End RaceP.
