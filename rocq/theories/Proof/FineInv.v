(** Invariants of the states of Model/Fine. *)
From Verif Require Import Model.Base Model.Fine.
From Verif Require Import Proof.Tactics.
Local Open Scope nat_scope.

Lemma setf_same : forall A i (x : A) f, setf i x f i = x.
Proof. intros. unfold setf. now rewrite Nat.eqb_refl. Qed.
Lemma setf_other : forall A i j (x : A) f, j <> i -> setf i x f j = f j.
Proof. intros. unfold setf. destruct (Nat.eqb_spec j i); [contradiction|reflexivity]. Qed.

Section FineInv.
  Context {W D P S : Type}.
  Variable work : W -> N -> D -> result (W * list (list P)).
  Variable absorb : S -> P -> S.
  Variables nw n : nat.
  Notation fstate := (@fstate W D P S).
  Notation fstep := (@fstep W D P S work absorb nw n).
  Notation fsteps := (@fsteps W D P S work absorb nw n).
  Notation fworker := (@fworker W D P).
  Notation fsender := (@fsender P).
  Notation fmain := (@fmain D).

  (** Holds the mutex. *)
  Definition holds (w : fworker) : bool :=
    match w with WChk _ _ _ | WReg _ _ _ _ | WSpawn _ _ _ _ | WGo _ _ _ _ _ | WSet _ _ _ | WBcast _ _ _ | WUnl _ => true | _ => false end.
  (** Starting or awaiting its senders: the request, and how many have been started. *)
  Definition phase (w : fworker) : option (nat * nat) :=
    match w with WSpawn _ rq _ i | WGo _ rq _ i _ => Some (rq, i) | _ => None end.
  Definition worker_rq (w : fworker) : option nat :=
    match w with
    | WGot _ rq _ _ | WQuit rq | WDo _ rq _ _ | WStore _ rq _ _ _ | WLock _ rq _ | WChk _ rq _ | WReg _ rq _ _ | WPark _ rq _
    | WSpawn _ rq _ _ | WGo _ rq _ _ _ | WSet _ rq _ | WBcast _ rq _ => Some rq
    | WIdle _ | WUnl _ | WStop => None
    end.
  (** ... while its slices may have arrays. *)
  Definition store_rq (w : fworker) : option nat :=
    match w with
    | WStore _ rq _ _ _ | WLock _ rq _ | WChk _ rq _ | WReg _ rq _ _ | WPark _ rq _ | WSpawn _ rq _ _ | WGo _ rq _ _ _ => Some rq
    | _ => None
    end.
  Definition live (w : fworker) : bool := match w with WQuit _ | WStop => false | _ => true end.
  Definition sender_rq (g : fsender) : option nat :=
    match g with GOff => None | GStart rq _ | GSend rq _ | GAck rq | GReset rq | GWg rq | GEnd rq => Some rq end.
  Definition sender_slice (g : fsender) : option (nat * (option nat * list P)) :=
    match g with GStart rq ps | GSend rq ps => Some (rq, ps) | _ => None end.
  (** Has set s.d[j] to nil. *)
  Definition cleared (g : fsender) : bool := match g with GWg _ | GEnd _ => true | _ => false end.
  Definition busy (v : @fserver P) : bool := match v with SBusy _ _ | SAck => true | _ => false end.
  Definition ended (v : @fserver P) : bool := match v with SEnd | SStop => true | _ => false end.
  Definition main_rq (m : fmain) : option nat := match m with FSend rq _ _ _ | FStopSend rq _ => Some rq | _ => None end.
  Definition closed_upto (m : fmain) : nat :=
    match m with FChan j | FClose j => j | FFiles | FGo _ | FEnd => n | _ => 0 end.
  (** Workers that have not been told to stop. *)
  Definition lives (s : fstate) : nat := length (filter (fun k => live (f_worker s k)) (seq 0 nw)).
  Definition lives_of (m : fmain) : nat :=
    match m with FAdd _ | FReq _ _ _ | FSend _ _ _ _ => nw | FStop k => k | FStopSend _ k => k + 1 | _ => 0 end.

  Record SI (s : fstate) : Prop := {
    i_mutex : forall k, holds (f_worker s k) = true <-> f_mutex s = Some k;
    i_send : forall k j,
      match phase (f_worker s k) with
      | Some (rq, i) => (j < i -> sender_rq (f_send s k j) = Some rq) /\ (i <= j -> f_send s k j = GOff)
      | None => f_send s k j = GOff
      end;
    i_ack : forall j, busy (f_srv s j) = true <-> exists k rq, f_send s k j = GAck rq;
    i_range : forall k, live (f_worker s k) = true -> k < nw;
    i_live : lives s = lives_of (f_main s);
    i_closed : forall j, f_closed s j = true <-> j < closed_upto (f_main s);
    i_ended : forall j, ended (f_srv s j) = true -> f_closed s j = true \/ (n <= j /\ f_srv s j = SStop);
    i_closer : forall j, f_closer s j <> COff -> match f_main s with FGo i => j < i | FEnd => True | _ => False end;
    i_fresh : forall k rq, worker_rq (f_worker s k) = Some rq -> rq < f_count s;
    i_fresh_main : forall rq, main_rq (f_main s) = Some rq -> rq < f_count s;
    i_uniq : forall k k' rq, worker_rq (f_worker s k) = Some rq -> worker_rq (f_worker s k') = Some rq -> k = k';
    i_uniq_main : forall k rq, worker_rq (f_worker s k) = Some rq -> main_rq (f_main s) <> Some rq;
    i_arr : forall k j a, fst (f_d s k j) = Some a -> store_rq (f_worker s k) = Some a /\ j < n /\ cleared (f_send s k j) = false;
    i_wgo : forall k w rq did i ps a, f_worker s k = WGo w rq did i ps -> fst ps = Some a -> a = rq;
    i_slice : forall k j rq ps a, sender_slice (f_send s k j) = Some (rq, ps) -> fst ps = Some a -> a = rq;
    i_sarr : forall j a ps, f_srv s j = SBusy (Some a) ps -> exists k, f_send s k j = GAck a
  }.

  (** Case analysis on the places an update meets. *)
  Ltac cases :=
    repeat match goal with
    | H : context [setf ?i _ _ ?j] |- _ => destruct (Nat.eq_dec j i); [subst; rewrite setf_same in *|rewrite (setf_other _ i j) in * by assumption]
    | |- context [setf ?i _ _ ?j] => destruct (Nat.eq_dec j i); [subst; rewrite setf_same in *|rewrite (setf_other _ i j) in * by assumption]
    end.
  Ltac opn := unfold set_worker, set_d, set_send, set_srv, with_main, with_next, with_count, with_workers, with_d, with_send, with_mutex, with_mono, with_srv, with_shard, with_closed, with_closer in *;
    cbn [f_main f_next f_count f_worker f_d f_send f_mutex f_mono f_srv f_shard f_closed f_closer] in *.

  Lemma holds_fwake : forall w : fworker, holds (fwake w) = holds w.
  Proof. now destruct w. Qed.
  Lemma phase_fwake : forall w : fworker, phase (fwake w) = phase w.
  Proof. now destruct w. Qed.
  Lemma worker_rq_fwake : forall w : fworker, worker_rq (fwake w) = worker_rq w.
  Proof. now destruct w. Qed.
  Lemma store_rq_fwake : forall w : fworker, store_rq (fwake w) = store_rq w.
  Proof. now destruct w. Qed.
  Lemma live_fwake : forall w : fworker, live (fwake w) = live w.
  Proof. now destruct w. Qed.

  (** Senders exist only while their worker holds the mutex. *)
  Lemma sender_worker : forall s, SI s -> forall k j, f_send s k j <> GOff ->
    exists rq i, phase (f_worker s k) = Some (rq, i) /\ j < i /\ sender_rq (f_send s k j) = Some rq /\ f_mutex s = Some k.
  Proof.
    intros s I k j H. pose proof (i_send s I k j) as A. destruct (phase (f_worker s k)) as [[rq i]|] eqn:E; [|contradiction].
    exists rq, i. destruct A as [A1 A2]. assert (j < i) by (destruct (Nat.lt_ge_cases j i); [assumption|exfalso; auto]).
    repeat split; auto. apply (i_mutex s I). destruct (f_worker s k); try discriminate; reflexivity.
  Qed.
  Lemma sender_unique : forall s, SI s -> forall k k' j j', f_send s k j <> GOff -> f_send s k' j' <> GOff -> k = k'.
  Proof.
    intros s I k k' j j' H H'. destruct (sender_worker s I k j H) as (? & ? & ? & ? & ? & M).
    destruct (sender_worker s I k' j' H') as (? & ? & ? & ? & ? & M'). congruence.
  Qed.

  Lemma all_stopped : forall s, SI s -> lives_of (f_main s) = 0 -> forall k, live (f_worker s k) = false.
  Proof.
    intros s I L k. pose proof (i_live s I) as A. rewrite L in A. unfold lives in A. apply length_zero_iff_nil in A.
    destruct (live (f_worker s k)) eqn:E; [|reflexivity]. pose proof (i_range s I k E) as R.
    assert (Q : In k (filter (fun k => live (f_worker s k)) (seq 0 nw))) by (apply filter_In; split; [apply in_seq; lia|assumption]).
    rewrite A in Q. destruct Q.
  Qed.
  Lemma stopped_quiet : forall s, SI s -> lives_of (f_main s) = 0 -> f_mutex s = None /\ (forall k j, f_send s k j = GOff) /\ forall j, busy (f_srv s j) = false.
  Proof.
    intros s I L. pose proof (all_stopped s I L) as A.
    assert (Q : forall k j, f_send s k j = GOff).
    { intros k j. pose proof (i_send s I k j) as B. specialize (A k). destruct (f_worker s k); try discriminate; exact B. }
    split; [|split; [exact Q|]].
    - destruct (f_mutex s) as [k|] eqn:E; [|reflexivity]. apply (i_mutex s I) in E. specialize (A k). destruct (f_worker s k); discriminate.
    - intros j. destruct (busy (f_srv s j)) eqn:E; [|reflexivity]. apply (i_ack s I) in E. destruct E as (k & rq & E). rewrite Q in E. discriminate.
  Qed.
  Lemma closed_stopped : forall s, SI s -> forall j, f_closed s j = true -> lives_of (f_main s) = 0.
  Proof. clear work absorb. intros s I j C. apply (i_closed s I) in C. destruct (f_main s); cbn in *; try reflexivity; lia. Qed.

  Lemma mutex_step : forall s es s', SI s -> fstep s es s' -> forall k, holds (f_worker s' k) = true <-> f_mutex s' = Some k.
  Proof.
    intros s es s' I St k. pose proof (i_mutex s I) as A.
    destruct St; opn; try apply A;
      try (match goal with H : f_worker s ?k0 = _ |- _ => pose proof (A k0) as B; rewrite H in B; cbn [holds] in B end);
      cases; rewrite ?holds_fwake; cbn [holds]; try apply A; try tauto; try (specialize (A k); intuition congruence).
    all: try destruct b; cbn; intuition discriminate.
  Qed.

  Ltac flag := try match goal with H : f_worker _ _ = WReg _ _ _ ?b |- _ => destruct b end.

  Lemma send_step : forall s es s', SI s -> fstep s es s' -> forall k j,
    match phase (f_worker s' k) with
    | Some (rq, i) => (j < i -> sender_rq (f_send s' k j) = Some rq) /\ (i <= j -> f_send s' k j = GOff)
    | None => f_send s' k j = GOff
    end.
  Proof.
    intros s es s' I St k j. pose proof (i_send s I) as A.
    destruct St; flag; opn; try apply A;
      try (match goal with H : f_worker s ?k0 = _ |- _ => pose proof (fun j => A k0 j) as B; rewrite H in B; cbn [phase] in B end);
      cases; rewrite ?phase_fwake; cbn [phase sender_rq]; try apply A; try tauto; try (now intros; auto);
      try (match goal with H : f_send s ?k0 ?j0 = _ |- context [f_worker s ?k0] => specialize (A k0 j0); rewrite H in A; cbn [sender_rq] in A;
           destruct (phase (f_worker s k0)) as [[? ?]|]; [|discriminate]; split; [tauto|]; intros; exfalso; intuition discriminate end);
      try (specialize (A k j); intuition congruence).
    - split; [tauto|lia].
    - specialize (B j). split; intros; apply B; lia.
  Qed.

  Lemma ack_step : forall s es s', SI s -> fstep s es s' ->
    forall j, busy (f_srv s' j) = true <-> exists k rq, f_send s' k j = GAck rq.
  Proof.
    intros s es s' I St j. pose proof (i_ack s I) as A. pose proof (i_send s I) as B.
    assert (Keep : forall k j', f_send s k j' = GOff -> forall g, (forall rq, g <> GAck rq) ->
      (exists k0 rq, setf k (setf j' g (f_send s k)) (f_send s) k0 j = GAck rq) <-> exists k0 rq, f_send s k0 j = GAck rq).
    { intros k j' E g N. split; intros (k0 & rq & H).
      - cases; try (now apply N in H); eauto.
      - exists k0, rq. destruct (Nat.eq_dec k0 k) as [->|]; [|now rewrite setf_other]. rewrite setf_same.
        destruct (Nat.eq_dec j j') as [->|]; [congruence|now rewrite setf_other]. }
    assert (Keep2 : forall k j', (forall rq, f_send s k j' <> GAck rq) -> forall g, (forall rq, g <> GAck rq) ->
      (exists k0 rq, setf k (setf j' g (f_send s k)) (f_send s) k0 j = GAck rq) <-> exists k0 rq, f_send s k0 j = GAck rq).
    { intros k j' E g N. split; intros (k0 & rq & H).
      - cases; try (now apply N in H); eauto.
      - exists k0, rq. destruct (Nat.eq_dec k0 k) as [->|]; [|now rewrite setf_other]. rewrite setf_same.
        destruct (Nat.eq_dec j j') as [->|]; [now apply E in H|now rewrite setf_other]. }
    destruct St; opn; try apply A;
    try (match goal with H : f_srv s ?j0 = _ |- _ => pose proof (A j0) as C; rewrite H in C; cbn [busy] in C end);
    try (rewrite Keep2; [apply A|intros ? ?; congruence|discriminate]).
    - (* FsSpawn *) rewrite Keep; [apply A| |discriminate]. specialize (B k i). rewrite H in B. now apply B.
    - (* FsWait *) rewrite (A j). split; intros (k0 & rq0 & Q).
      + exists k0, rq0. destruct (Nat.eq_dec k0 k) as [->|]; [|now rewrite setf_other]. exfalso.
        specialize (B k j). rewrite H in B. cbn [phase] in B. destruct (Nat.lt_ge_cases j n) as [L|L].
        * destruct (H0 j L). congruence.
        * destruct B as [_ B]. specialize (B L). congruence.
      + cases; [discriminate|]. eauto.
    - (* FsPost *) destruct (Nat.eq_dec j j0) as [->|Nj].
      + rewrite setf_same. cbn [busy]. split; [|reflexivity]. intros _. exists k, rq. now rewrite !setf_same.
      + rewrite setf_other by assumption. rewrite (A j). split; intros (k0 & rq0 & Q); exists k0, rq0; cases; try assumption; try congruence.
    - (* FsSteal *) exfalso. apply H1. apply (sender_unique s I k k' j0 j0); congruence.
    - (* FsAck *) destruct (Nat.eq_dec j j0) as [->|Nj].
      + rewrite setf_same. cbn [busy]. split; [discriminate|]. intros (k0 & rq0 & Q). exfalso. destruct (Nat.eq_dec k0 k) as [->|Nk]; [rewrite !setf_same in Q; discriminate|rewrite setf_other in Q by assumption].
        apply Nk. apply (sender_unique s I k0 k j0 j0); congruence.
      + rewrite setf_other by assumption. rewrite (A j). split; intros (k0 & rq0 & Q); exists k0, rq0; cases; try assumption; try congruence.
    - (* FsAckClosed *) destruct (stopped_quiet s I (closed_stopped s I j0 H0)) as (_ & Q & _). rewrite Q in H. discriminate.
    - cases; [|apply A]. cbn. apply C.
    - cases; [|apply A]. cbn. apply C.
    - cases; [|apply A]. cbn. rewrite <- (A j0), H. reflexivity.
    - cases; [|apply A]. cbn. apply C.
    - cases; [|apply A]. cbn. apply C.
  Qed.

  Lemma lives_set : forall f g k, (forall k', k' <> k -> live (f k') = live (g k')) ->
    length (filter (fun k' => live (f k')) (seq 0 nw)) + (if k <? nw then if live (g k) then 1 else 0 else 0) =
    length (filter (fun k' => live (g k')) (seq 0 nw)) + (if k <? nw then if live (f k) then 1 else 0 else 0).
  Proof.
    intros f g k E.
    assert (Q : forall m a, length (filter (fun k' => live (f k')) (seq a m)) + (if (a <=? k) && (k <? a + m) then if live (g k) then 1 else 0 else 0) =
                   length (filter (fun k' => live (g k')) (seq a m)) + (if (a <=? k) && (k <? a + m) then if live (f k) then 1 else 0 else 0)).
    { induction m as [|m IH]; intros a; cbn [seq filter length].
      - replace (a + 0) with a by lia. destruct (Nat.leb_spec a k), (Nat.ltb_spec k a); cbn; lia.
      - specialize (IH (Datatypes.S a)). destruct (Nat.eq_dec a k) as [->|Na].
        + replace ((Datatypes.S k <=? k) && (k <? Datatypes.S k + m)) with false in IH by (destruct (Nat.leb_spec (Datatypes.S k) k); [lia|reflexivity]).
          replace ((k <=? k) && (k <? k + Datatypes.S m)) with true by (destruct (Nat.leb_spec k k), (Nat.ltb_spec k (k + Datatypes.S m)); reflexivity || lia).
          destruct (live (f k)), (live (g k)); cbn [length]; lia.
        + rewrite (E a Na). replace ((a <=? k) && (k <? a + Datatypes.S m)) with ((Datatypes.S a <=? k) && (k <? Datatypes.S a + m))
            by (destruct (Nat.leb_spec a k), (Nat.leb_spec (Datatypes.S a) k), (Nat.ltb_spec k (a + Datatypes.S m)), (Nat.ltb_spec k (Datatypes.S a + m)); reflexivity || lia).
          destruct (live (g a)); cbn [length]; lia. }
    specialize (Q nw 0). cbn [Nat.leb andb] in Q. replace (0 + nw) with nw in Q by lia. exact Q.
  Qed.

  Lemma range_step : forall s es s', SI s -> fstep s es s' -> forall k, live (f_worker s' k) = true -> k < nw.
  Proof.
    intros s es s' I St k L. pose proof (i_range s I) as A.
    destruct St; flag; opn; try (now apply A); cases; rewrite ?live_fwake in L; try (now apply A); try (apply A; rewrite H; reflexivity); try (apply A; rewrite H0; reflexivity).
  Qed.

  Lemma lives_same : forall f g, (forall k, live (f k) = live (g k)) ->
    length (filter (fun k' => live (f k')) (seq 0 nw)) = length (filter (fun k' => live (g k')) (seq 0 nw)).
  Proof. intros f g E. f_equal. apply filter_ext. exact E. Qed.

  Lemma live_step : forall s es s', SI s -> fstep s es s' -> lives s' = lives_of (f_main s').
  Proof.
    intros s es s' I St. pose proof (i_live s I) as A. unfold lives in *.
    assert (K : forall k w, live w = live (f_worker s k) -> length (filter (fun k' => live (setf k w (f_worker s) k')) (seq 0 nw)) =
                length (filter (fun k' => live (f_worker s k')) (seq 0 nw))).
    { intros k w E. apply lives_same. intros k'. cases; [exact E|reflexivity]. }
    destruct St; flag; opn; try exact A;
      try (rewrite K by (rewrite H; reflexivity); exact A); try (rewrite A, H; reflexivity).
    - (* FsGive *) rewrite K by (rewrite H0; reflexivity). rewrite A, H. reflexivity.
    - (* FsStopGive *) pose proof (lives_set (setf k' (WQuit rq) (f_worker s)) (f_worker s) k') as Q.
      rewrite setf_same in Q. rewrite H0 in Q. cbn [live] in Q. rewrite A, H in Q. cbn [lives_of] in Q |- *.
      pose proof (i_range s I k') as R. rewrite H0 in R. specialize (R eq_refl). replace (k' <? nw) with true in Q by (symmetry; apply Nat.ltb_lt; exact R).
      assert (forall k'0, k'0 <> k' -> live (setf k' (WQuit rq) (f_worker s) k'0) = live (f_worker s k'0)) by (intros; now rewrite setf_other).
      specialize (Q H1). lia.
    - (* FsBcast *) rewrite <- A. apply lives_same. intros k'. cases; [now rewrite H|apply live_fwake].
  Qed.

  Lemma closed_step : forall s es s', SI s -> fstep s es s' -> forall j, f_closed s' j = true <-> j < closed_upto (f_main s').
  Proof.
    intros s es s' I St j. pose proof (i_closed s I j) as A.
    destruct St; opn; try exact A; rewrite H in A; cbn [closed_upto] in *; try exact A.
    - cases; [intuition lia|]. rewrite A. lia.
  Qed.

  Lemma ended_step : forall s es s', SI s -> fstep s es s' -> forall j, ended (f_srv s' j) = true -> f_closed s' j = true \/ (n <= j /\ f_srv s' j = SStop).
  Proof.
    intros s es s' I St j E. pose proof (i_ended s I) as A.
    destruct St; opn; try (now apply A); cases; try discriminate; try (now apply A); auto.
    - destruct (A j0) as [Q|[Q _]]; [rewrite H; reflexivity|now left|now right].
  Qed.

  Lemma closer_step : forall s es s', SI s -> fstep s es s' -> forall j, f_closer s' j <> COff ->
    match f_main s' with FGo i => j < i | FEnd => True | _ => False end.
  Proof.
    intros s es s' I St j E. pose proof (i_closer s I j) as A.
    destruct St; opn; try (now apply A); try (rewrite H in A; now apply A).
    - exfalso. rewrite H in A. now apply A.
    - cases; [lia|]. rewrite H in A. specialize (A E). lia.
    - exact Logic.I.
    - cases; [|now apply A]. apply (i_closer s I). congruence.
  Qed.

  Lemma fresh_step : forall s es s', SI s -> fstep s es s' -> forall k rq, worker_rq (f_worker s' k) = Some rq -> rq < f_count s'.
  Proof.
    intros s es s' I St k r E. pose proof (i_fresh s I) as A. pose proof (i_fresh_main s I) as B.
    destruct St; flag; opn; try (now apply A in E); try (apply A in E; lia); cases; rewrite ?worker_rq_fwake in E; try (now apply A in E); cbn [worker_rq] in E;
      try discriminate; inversion E; subst; try (eapply A; rewrite H; reflexivity); apply B; rewrite H; reflexivity.
  Qed.

  Lemma fresh_main_step : forall s es s', SI s -> fstep s es s' -> forall rq, main_rq (f_main s') = Some rq -> rq < f_count s'.
  Proof.
    intros s es s' I St r E. pose proof (i_fresh_main s I) as B.
    destruct St; opn; try (now apply B in E); cbn [main_rq] in E; try discriminate; inversion E; subst; lia.
  Qed.

  Lemma uniq_step : forall s es s', SI s -> fstep s es s' -> forall k k' rq, worker_rq (f_worker s' k) = Some rq -> worker_rq (f_worker s' k') = Some rq -> k = k'.
  Proof.
    intros s es s' I St k k' r E E'. pose proof (i_uniq s I) as A. pose proof (i_uniq_main s I) as B.
    destruct St; flag; opn; try (now eapply A; eassumption); cases; rewrite ?worker_rq_fwake in *; try (now eapply A; eassumption); try reflexivity;
    cbn [worker_rq] in *; try discriminate;
    try (match goal with Q : Some _ = Some _ |- _ => injection Q as -> end);
    try (exfalso; match goal with Q : worker_rq _ = Some _ |- _ => apply B in Q; rewrite H in Q; now apply Q end);
    try (eapply A; [eassumption|rewrite H; reflexivity]); try (eapply A; [rewrite H; reflexivity|eassumption]).
  Qed.

  Lemma uniq_main_step : forall s es s', SI s -> fstep s es s' -> forall k rq, worker_rq (f_worker s' k) = Some rq -> main_rq (f_main s') <> Some rq.
  Proof.
    intros s es s' I St k r E E'. pose proof (i_uniq_main s I) as B. pose proof (i_fresh s I) as F.
    destruct St; flag; opn; try (now eapply B; eassumption); cbn [main_rq] in *; try discriminate;
    try (injection E' as <-; apply F in E; lia);
    cases; rewrite ?worker_rq_fwake in *; try (now eapply B; eassumption); cbn [worker_rq] in *; try discriminate; eapply B; try eassumption; rewrite H; assumption.
  Qed.

  Lemma arr_step : forall s es s', SI s -> fstep s es s' -> forall k j a, fst (f_d s' k j) = Some a ->
    store_rq (f_worker s' k) = Some a /\ j < n /\ cleared (f_send s' k j) = false.
  Proof.
    intros s es s' I St k j a E. pose proof (i_arr s I) as A. pose proof (i_send s I) as B.
    destruct St; flag; opn; try (now apply A); cases; rewrite ?store_rq_fwake in *; try (now apply A); cbn [cleared] in *; try discriminate;
    try (match goal with |- context [f_worker s ?k] => apply A in E as (E1 & E2 & E3) end; repeat split; (assumption || (exfalso; congruence) || idtac));
    try (apply A in E as (E1 & E2 & E3); rewrite H in E1; cbn [store_rq] in *; repeat split; try (assumption || discriminate)).
    - apply A in E as (E1 & _). rewrite H0 in E1. discriminate.
    - apply A in E as (E1 & _). rewrite H0 in E1. discriminate.
    - cbn [fst] in E. injection E as ->. split; [|split; [assumption|]].
      + cbn [store_rq]. destruct H2 as [->|Q]; [reflexivity|]. apply A in Q as (Q & _). rewrite H in Q. exact Q.
      + specialize (B k0 j0). rewrite H in B. cbn [phase] in B. now rewrite B.
    - destruct (H0 j E2) as [r Q]. rewrite Q in E3. discriminate.
    - contradiction.
    - rewrite H in E3. discriminate.
  Qed.

  Lemma wgo_step : forall s es s', SI s -> fstep s es s' -> forall k w rq did i ps a, f_worker s' k = WGo w rq did i ps -> fst ps = Some a -> a = rq.
  Proof.
    intros s es s' I St k w0 rq0 did0 i0 ps0 a0 E E0. pose proof (i_wgo s I) as A. pose proof (i_arr s I) as B.
    destruct St; flag; opn; try (now eapply A; eassumption); cases; try discriminate; try (now eapply A; eassumption).
    - injection E as -> -> -> -> <-. apply B in E0 as (E0 & _). rewrite H in E0. cbn in E0. congruence.
    - destruct (f_worker s k) eqn:Q; try discriminate. cbn in E. injection E as -> -> -> -> ->. eapply A; eassumption.
  Qed.

  Lemma slice_step : forall s es s', SI s -> fstep s es s' -> forall k j rq ps a, sender_slice (f_send s' k j) = Some (rq, ps) -> fst ps = Some a -> a = rq.
  Proof.
    intros s es s' I St k j rq0 ps0 a0 E E0. pose proof (i_slice s I) as A. pose proof (i_wgo s I) as B.
    destruct St; opn; try (now eapply A; eassumption); cases; cbn [sender_slice] in E; try discriminate; try (now eapply A; eassumption).
    - injection E as -> ->. eapply B; eassumption.
    - injection E as -> ->. eapply (A _ _ rq0 ps0); [rewrite H; reflexivity|assumption].
  Qed.

  Lemma sarr_step : forall s es s', SI s -> fstep s es s' -> forall j a ps, f_srv s' j = SBusy (Some a) ps -> exists k, f_send s' k j = GAck a.
  Proof.
    intros s es s' I St j a0 ps0 E. pose proof (i_sarr s I) as A. pose proof (i_send s I) as B.
    assert (Keep : forall j' k0 g, (forall rq, f_send s k0 j' <> GAck rq) -> f_srv s j = SBusy (Some a0) ps0 ->
      exists k, setf k0 (setf j' g (f_send s k0)) (f_send s) k j = GAck a0).
    { intros j' k0 g Ng Q. destruct (A _ _ _ Q) as [k Q']. exists k. destruct (Nat.eq_dec k k0) as [->|]; [rewrite setf_same|now rewrite setf_other].
      destruct (Nat.eq_dec j j') as [->|]; [now apply Ng in Q'|now rewrite setf_other]. }
    destruct St; opn; try (now eapply A; eassumption); try (apply Keep; [congruence|assumption]);
      try (match goal with Q : setf ?i _ _ j = _ |- _ => destruct (Nat.eq_dec j i); [subst; rewrite setf_same in *; try discriminate|rewrite setf_other in * by assumption; try (now eapply A; eassumption)] end).
    - (* FsSpawn *) apply Keep; [|assumption]. specialize (B k i). rewrite H in B. cbn in B. destruct B as [_ B]. rewrite B; [discriminate|lia].
    - (* FsWait *) destruct (A _ _ _ E) as [k0 Q]. destruct (Nat.eq_dec k0 k) as [->|]; [|exists k0; now rewrite setf_other].
      exfalso. specialize (B k j). rewrite H in B. cbn in B. destruct (Nat.lt_ge_cases j n) as [L|L].
      + destruct (H0 j L). congruence.
      + destruct B as [_ B]. specialize (B L). congruence.
    - injection E as E1 E2. exists k. rewrite !setf_same. f_equal.
      symmetry. eapply (i_slice s I k j0 rq ps); [rewrite H; reflexivity|assumption].
    - apply Keep; [congruence|assumption].
    - exfalso. apply H1. apply (sender_unique s I k k' j0 j0); congruence.
    - destruct (A _ _ _ E) as [k0 Q]. exists k0. destruct (Nat.eq_dec k0 k) as [->|]; [rewrite setf_same|now rewrite setf_other]. now rewrite setf_other.
    - destruct (stopped_quiet s I (closed_stopped s I j0 H0)) as (_ & Q & _). rewrite Q in H. discriminate.
    - injection E as -> ->. eapply A. eassumption.
  Qed.

  Theorem si_step : forall s es s', SI s -> fstep s es s' -> SI s'.
  Proof.
    intros s es s' I St. constructor.
    - eapply mutex_step; eassumption.
    - eapply send_step; eassumption.
    - eapply ack_step; eassumption.
    - eapply range_step; eassumption.
    - eapply live_step; eassumption.
    - eapply closed_step; eassumption.
    - eapply ended_step; eassumption.
    - eapply closer_step; eassumption.
    - eapply fresh_step; eassumption.
    - eapply fresh_main_step; eassumption.
    - eapply uniq_step; eassumption.
    - eapply uniq_main_step; eassumption.
    - eapply arr_step; eassumption.
    - eapply wgo_step; eassumption.
    - eapply slice_step; eassumption.
    - eapply sarr_step; eassumption.
  Qed.

  Theorem si_start : forall docs last ws shards s0, length ws = nw -> SI (fstart n docs last ws shards s0).
  Proof.
    intros docs last ws shards s0 L.
    assert (E : forall k, live (f_worker (fstart (P := P) (S := S) n docs last ws shards s0) k) = true <-> k < nw).
    { intros k. cbn. rewrite <- L. destruct (nth_error ws k) eqn:Q; cbn; split; intros H; try discriminate; try reflexivity.
      - apply nth_error_Some. congruence.
      - apply nth_error_None in Q. lia. }
    constructor; try (apply E); unfold fstart; cbn [f_main f_next f_count f_worker f_d f_send f_mutex f_mono f_srv f_shard f_closed f_closer fst nil_slice]; try discriminate; try (intros; exfalso; lia); try (now intros; contradiction).
    - intros k. destruct (nth_error ws k); cbn; split; discriminate.
    - intros k j. destruct (nth_error ws k); reflexivity.
    - intros j. destruct (j <? n); cbn; (split; [discriminate|intros (? & ? & ?); discriminate]).
    - unfold lives. transitivity (length (seq 0 nw)); [|apply seq_length]. f_equal.
      assert (Q : forall l, (forall k, In k l -> live (f_worker (fstart (P := P) (S := S) n docs last ws shards s0) k) = true) ->
        filter (fun k => live (f_worker (fstart (P := P) (S := S) n docs last ws shards s0) k)) l = l).
      { induction l as [|x r IH]; intros H; [reflexivity|]. cbn [filter]. rewrite H by (now left). f_equal. apply IH. intros; apply H; now right. }
      apply Q. intros k Hk. apply E. apply in_seq in Hk. lia.
    - intros j. cbn. split; [discriminate|lia].
    - intros j. destruct (Nat.ltb_spec j n); cbn; [discriminate|auto].
    - intros k rq. destruct (nth_error ws k); discriminate.
    - intros k k' rq. destruct (nth_error ws k); discriminate.
    - intros k w rq did i ps a. destruct (nth_error ws k); discriminate.
    - intros j a ps. destruct (j <? n); discriminate.
  Qed.

  Theorem si_steps : forall s tr s', SI s -> fsteps s tr s' -> SI s'.
  Proof. intros s tr s' I H. induction H as [s|s1 tr s2 es s3 H IH St]; [assumption|]. eapply si_step; [apply IH, I|exact St]. Qed.
End FineInv.
