(** The fine steps come to an end, and they do so only when everything is done. *)
From Verif Require Import Model.Base Model.Conc Model.Fine.
From Verif Require Import Proof.Tactics Proof.FineInv Proof.FineRefine.
Local Open Scope nat_scope.

Lemma nth_error_Some_lt : forall A (l : list A) i x, nth_error l i = Some x -> i < length l.
Proof. intros A l i x E. apply nth_error_Some. congruence. Qed.

Section FineLive.
  Context {W D P S : Type}.
  Variable work : W -> N -> D -> result (W * list (list P)).
  Variable absorb : S -> P -> S.
  Variables nw n : nat.
  Hypothesis work_len : forall w did d w' bs, work w did d = Ok (w', bs) -> length bs = n.
  Notation fstate := (@fstate W D P S).
  Notation fstep := (@fstep W D P S work absorb nw n).
  Notation fmoves := (@fmoves W D P S work absorb nw n).
  Notation SI := (@SI W D P S nw n).
  Notation RI := (@RI W D P S nw n).
  Notation cstep := (@step W D P S work absorb).
  Notation abs := (@abs W D P S nw n).
  Notation rank := (@rank W D P S nw n).

  Ltac opn := unfold set_worker, set_d, set_send, set_srv, with_main, with_next, with_count, with_workers, with_d, with_send, with_mutex, with_mono, with_srv, with_shard, with_closed, with_closer in *;
    cbn [f_main f_next f_count f_worker f_d f_send f_mutex f_mono f_srv f_shard f_closed f_closer] in *.

  Lemma mrank_le : forall m : @fmain D, mrank n m <= 2 * n + 5.
  Proof. clear. intros m. destruct m; cbn [mrank]; lia. Qed.
  Lemma wrank_le : forall w : @fworker W D P, wrank n w <= 3 * n + 2.
  Proof. clear. intros w. destruct w; cbn [wrank]; lia. Qed.
  Lemma grank_le : forall g : @fsender P, grank g <= 2.
  Proof. clear. intros g. destruct g; cbn [grank]; lia. Qed.
  Lemma srank_le : forall v : @fserver P, srank v <= 1.
  Proof. clear. intros v. destruct v; cbn [srank]; lia. Qed.
  Lemma crank_le : forall c, crank c <= 1.
  Proof. clear. intros c. destruct c; cbn [crank]; lia. Qed.
  Lemma send_rank_le : forall (f : nat -> nat -> @fsender P) k j g,
    sumn (fun k' => sumn (fun j' => grank (setf k (setf j g (f k)) f k' j')) n) nw <= sumn (fun k' => sumn (fun j' => grank (f k' j')) n) nw + 2.
  Proof.
    clear. intros f k j g. destruct (Nat.lt_ge_cases k nw) as [L|L].
    - pose proof (sumn_setf _ (fun F => sumn (fun j' => grank (F j')) n) f k (setf j g (f k)) nw L) as A. cbn beta in A.
      pose proof (sumn_setf_le _ grank (f k) j g n) as B. pose proof (grank_le g). lia.
    - rewrite (sumn_setf_out _ (fun F => sumn (fun j' => grank (F j')) n) f k _ nw L). lia.
  Qed.

  Definition burst : nat := 5 * n + 13.
  Lemma rank_grows : forall s es s', fstep s es s' -> rank s' <= rank s + burst.
  Proof.
    intros s es s' St. unfold burst. pose proof (mrank_le (f_main s')) as M.
    destruct St; unfold FineRefine.rank; opn; cbn [f_main] in M; try lia;
    repeat match goal with
    | |- context [sumn (fun i => wrank _ (setf ?k ?x ?f i)) nw] =>
        let E := fresh "E" in pose proof (sumn_setf_le _ (wrank n) f k x nw) as E; pose proof (wrank_le x);
        remember (sumn (fun i => wrank n (setf k x f i)) nw)
    | |- context [sumn (fun i => srank (setf ?k ?x ?f i)) n] =>
        let E := fresh "E" in pose proof (sumn_setf_le _ srank f k x n) as E; pose proof (srank_le x);
        remember (sumn (fun i => srank (setf k x f i)) n)
    | |- context [sumn (fun i => crank (setf ?k ?x ?f i)) n] =>
        let E := fresh "E" in pose proof (sumn_setf_le _ crank f k x n) as E; pose proof (crank_le x);
        remember (sumn (fun i => crank (setf k x f i)) n)
    | |- context [sumn (fun k' => sumn (fun j' => grank (setf ?k (setf ?j ?g (?f ?k)) ?f k' j')) n) nw] =>
        let E := fresh "E" in pose proof (send_rank_le f k j g) as E;
        remember (sumn (fun k' => sumn (fun j' => grank (setf k (setf j g (f k)) f k' j')) n) nw)
    end; try lia.
    - pose proof (sumn_setf_le _ (fun F => sumn (fun j' => grank (F j')) n) (f_send s) k (fun _ => GOff) nw) as Q. cbn beta in Q.
      rewrite (sumn_zero n) in Q. lia.
    - cbn beta in E. rewrite (sumn_ext (fun i => wrank n (fwake (f_worker s i))) (fun i => wrank n (f_worker s i)) nw) in E by (intros i _; destruct (f_worker s i); reflexivity). lia.
    - pose proof (send_rank_le (f_send s) k j (GAck rq)). lia.
  Qed.

  (** Something can change. *)
  Definition can_move (s : fstate) : Prop := exists es s', fstep s es s' /\ s' <> s.
  Lemma either_all : forall (X : Prop) (Q : nat -> Prop) m, (forall i, i < m -> X \/ Q i) -> X \/ forall i, i < m -> Q i.
  Proof.
    clear. intros X Q m. induction m as [|m IH]; intros H; [right; intros; lia|].
    destruct IH as [A|A]; [intros; apply H; lia|now left|]. destruct (H m) as [B|B]; [lia|now left|].
    right. intros i L. destruct (Nat.eq_dec i m) as [->|]; [exact B|apply A; lia].
  Qed.

  Section Move.
    Variable s : fstate.
    Hypothesis I : SI s.
    Hypothesis R : RI s.
    Lemma quiet_main : can_move s \/ match f_main s with FSend _ _ _ _ | FStopSend _ _ | FEnd => True | _ => False end.
    Proof.
      destruct (f_main s) eqn:H; try (right; exact Logic.I).
      - destruct docs as [|d docs].
        + left. eexists _, _; split; [exact (FsBegin work absorb nw n s H)|intros E]. apply (f_equal (fun s0 : fstate => f_main s0)) in E. opn. cbn beta in E. rewrite H in E. discriminate.
        + left. eexists _, _; split; [exact (FsId work absorb nw n s _ _ H)|intros E]. apply (f_equal (fun s0 : fstate => f_main s0)) in E. opn. cbn beta in E. rewrite H in E. discriminate.
      - left. eexists _, _; split; [exact (FsNew work absorb nw n s _ _ _ H)|intros E]. apply (f_equal (fun s0 : fstate => f_main s0)) in E. opn. cbn beta in E. rewrite H in E. discriminate.
      - destruct k as [|k].
        + left. eexists _, _; split; [exact (FsStopDone work absorb nw n s H)|intros E]. apply (f_equal (fun s0 : fstate => f_main s0)) in E. opn. cbn beta in E. rewrite H in E. discriminate.
        + replace (Datatypes.S k) with (k + 1) in H by lia.
          left. eexists _, _; split; [exact (FsStopNew work absorb nw n s _ H)|intros E]. apply (f_equal (fun s0 : fstate => f_main s0)) in E. opn. cbn beta in E. rewrite H in E. discriminate.
      - pose proof (r_chan _ _ s R _ H) as L. destruct (Nat.eq_dec j n) as [->|N].
        + left. eexists _, _; split; [exact (FsChanDone work absorb nw n s H)|intros E]. apply (f_equal (fun s0 : fstate => f_main s0)) in E. opn. cbn beta in E. rewrite H in E. discriminate.
        + left. eexists _, _; split; [exact (FsChanRead work absorb nw n s _ H ltac:(lia))|intros E]. apply (f_equal (fun s0 : fstate => f_main s0)) in E. opn. cbn beta in E. rewrite H in E. discriminate.
      - left. eexists _, _; split; [exact (FsChanClose work absorb nw n s _ H)|intros E]. apply (f_equal (fun s0 : fstate => f_main s0)) in E. opn. cbn beta in E. rewrite H in E. discriminate.
      - left. eexists _, _; split; [exact (FsFilesDone work absorb nw n s H)|intros E]. apply (f_equal (fun s0 : fstate => f_main s0)) in E. opn. cbn beta in E. rewrite H in E. discriminate.
      - destruct (r_fgo _ _ s R _ H) as [L C]. destruct (Nat.eq_dec j n) as [->|N].
        + destruct (either_all (can_move s) (fun j => f_closer s j = CDone) n) as [A|A]; [|now left|].
          { intros j L'. specialize (C j L'). destruct (f_closer s j) eqn:E; [contradiction| |now right].
            left. eexists _, _; split; [exact (FsCloserDone work absorb nw n s _ E)|intros Q]. apply (f_equal (fun s0 : fstate => f_closer s0 j)) in Q. opn. cbn beta in Q.
            rewrite setf_same, E in Q. discriminate. }
          left. eexists _, _; split; [exact (FsEnd work absorb nw n s H A)|intros E]. apply (f_equal (fun s0 : fstate => f_main s0)) in E. opn. cbn beta in E. rewrite H in E. discriminate.
        + left. eexists _, _; split; [exact (FsGo work absorb nw n s _ H ltac:(lia))|intros E]. apply (f_equal (fun s0 : fstate => f_main s0)) in E. opn. cbn beta in E. rewrite H in E. injection E as E. lia.
    Qed.
    Lemma quiet_closer : forall j, can_move s \/ f_closer s j <> CRun.
    Proof.
      intros j. destruct (f_closer s j) eqn:E; [right; discriminate| |right; discriminate]. left. eexists _, _; split; [exact (FsCloserDone work absorb nw n s _ E)|intros Q]. apply (f_equal (fun s0 : fstate => f_closer s0 j)) in Q. opn. cbn beta in Q.
      rewrite setf_same, E in Q. discriminate.
    Qed.
    Ltac wk k E := apply (f_equal (fun s0 : fstate => f_worker s0 k)) in E; opn; cbn beta in E; rewrite setf_same in E;
      match goal with H : f_worker s k = _ |- _ => rewrite H in E end; try discriminate E.
    Lemma quiet_worker : forall k, can_move s \/
      match f_worker s k with WIdle _ | WDo _ _ _ _ | WLock _ _ _ | WPark _ _ _ | WStop => True | WSpawn _ _ _ i => i = n | _ => False end.
    Proof.
      intros k. destruct (f_worker s k) eqn:H; try (right; exact Logic.I).
      - left. eexists _, _; split; [exact (FsGot work absorb nw n s _ _ _ _ _ H)|intros E]. wk k E.
      - left. eexists _, _; split; [exact (FsQuit work absorb nw n s _ _ H)|intros E]. wk k E.
      - destruct (r_store _ _ s R _ _ _ _ _ _ H) as (_ & L & _). destruct (Nat.eq_dec j n) as [->|N].
        + left. eexists _, _; split; [exact (FsStored work absorb nw n s _ _ _ _ _ H)|intros E]. wk k E.
        + destruct (nth j bs []) as [|p ps] eqn:B.
          * left. eexists _, _; split; [exact (FsStoreNone work absorb nw n s _ _ _ _ _ _ H ltac:(lia) B)|intros E]. wk k E. injection E as E. lia.
          * left. eexists _, _; split; [exact (FsStore work absorb nw n s _ _ _ _ _ _ rq H ltac:(lia) ltac:(rewrite B; discriminate) (or_introl eq_refl))|intros E]. wk k E. injection E as E. lia.
      - destruct (N.eq_dec (f_mono s) (sub32 did 1)) as [Q|Q].
        + left. eexists _, _; split; [exact (FsChkYes work absorb nw n s _ _ _ _ H Q)|intros E]. wk k E.
        + left. eexists _, _; split; [exact (FsChkNo work absorb nw n s _ _ _ _ H Q)|intros E]. wk k E.
      - left. eexists _, _; split; [exact (FsPark work absorb nw n s _ _ _ _ _ H)|intros E]. wk k E. destruct woken; discriminate.
      - pose proof (r_spawn _ _ s R _ _ _ _ _ H) as L. destruct (Nat.eq_dec i n) as [->|N]; [now right|].
        left. eexists _, _; split; [exact (FsRange work absorb nw n s _ _ _ _ _ H ltac:(lia))|intros E]. wk k E.
      - left. eexists _, _; split; [exact (FsSpawn work absorb nw n s _ _ _ _ _ _ H)|intros E]. wk k E.
      - left. eexists _, _; split; [exact (FsSet work absorb nw n s _ _ _ _ H)|intros E]. wk k E.
      - left. eexists _, _; split; [exact (FsBcast work absorb nw n s _ _ _ _ H)|intros E]. wk k E.
      - left. eexists _, _; split; [exact (FsUnlock work absorb nw n s _ _ H)|intros E]. wk k E.
    Qed.
    Ltac gk k j E := apply (f_equal (fun s0 : fstate => f_send s0 k j)) in E; opn; cbn beta in E; rewrite !setf_same in E;
      match goal with H : f_send s k j = _ |- _ => rewrite H in E end; try discriminate E.
    Lemma quiet_send : forall k j, can_move s \/ match f_send s k j with GOff | GSend _ _ | GAck _ | GEnd _ => True | _ => False end.
    Proof.
      intros k j. destruct (f_send s k j) eqn:H; try (right; exact Logic.I).
      - left. eexists _, _; split; [exact (FsStart work absorb nw n s _ _ _ _ H)|intros E]. gk k j E.
      - left. eexists _, _; split; [exact (FsReset work absorb nw n s _ _ _ H)|intros E]. gk k j E.
      - left. eexists _, _; split; [exact (FsWg work absorb nw n s _ _ _ H)|intros E]. gk k j E.
    Qed.
    Ltac vk j E := apply (f_equal (fun s0 : fstate => f_srv s0 j)) in E; opn; cbn beta in E; rewrite !setf_same in E;
      match goal with H : f_srv s j = _ |- _ => rewrite H in E end; try discriminate E.
    Lemma quiet_srv : forall j, can_move s \/ match f_srv s j with SRecv | SAck | SStop => True | _ => False end.
    Proof.
      intros j. destruct (f_srv s j) eqn:H; try (right; exact Logic.I).
      - assert (L : j < n) by (apply (srv_lt nw n s R); congruence). left. eexists _, _; split; [exact (FsSrvRead work absorb nw n s _ H L)|intros E]. vk j E.
      - destruct ps as [|p ps].
        + left. eexists _, _; split; [exact (FsServed work absorb nw n s _ _ H)|intros E]. vk j E.
        + left. eexists _, _; split; [exact (FsAbsorb work absorb nw n s _ _ _ _ H)|intros E]. vk j E. injection E as E. apply (f_equal (@length P)) in E. cbn in E. lia.
      - left. eexists _, _; split; [exact (FsSrvEnd work absorb nw n s _ H)|intros E]. vk j E.
    Qed.
    Section Quiet.
    Hypothesis Qm : match f_main s with FSend _ _ _ _ | FStopSend _ _ | FEnd => True | _ => False end.
    Hypothesis Qw : forall k, match f_worker s k with WIdle _ | WDo _ _ _ _ | WLock _ _ _ | WPark _ _ _ | WStop => True | WSpawn _ _ _ i => i = n | _ => False end.
    Hypothesis Qs : forall k j, match f_send s k j with GOff | GSend _ _ | GAck _ | GEnd _ => True | _ => False end.
    Hypothesis Qv : forall j, match f_srv s j with SRecv | SAck | SStop => True | _ => False end.
    Hypothesis Qc : forall j, f_closer s j <> CRun.
    Lemma quiet_waking : waking s = false.
    Proof. unfold waking. destruct (f_mutex s) as [k|]; [|reflexivity]. pose proof (Qw k) as A. destruct (f_worker s k); try contradiction; reflexivity. Qed.
    Lemma quiet_mutex : amutex s = None -> f_mutex s = None.
    Proof. unfold amutex. destruct (f_mutex s) as [k|]; [|auto]. pose proof (Qw k) as A. destruct (f_worker s k); try contradiction; discriminate. Qed.

    Lemma worker_at : forall k x, nth_error (s_workers (abs s)) k = Some x -> k < nw /\ x = aw n s k.
    Proof.
      intros k x E. unfold FineRefine.abs in E. cbn [s_workers] in E.
      assert (L : k < nw) by (apply nth_error_Some_lt in E; now rewrite map_length, seq_length in E).
      rewrite nth_map_seq in E by exact L. injection E as E. auto.
    Qed.
    Lemma server_at : forall j x, nth_error (s_servers (abs s)) j = Some x -> j < n /\ x = aserver s j.
    Proof.
      intros k x E. unfold FineRefine.abs in E. cbn [s_servers] in E.
      assert (L : k < n) by (apply nth_error_Some_lt in E; now rewrite map_length, seq_length in E).
      rewrite nth_map_seq in E by exact L. injection E as E. auto.
    Qed.
    (** A worker that is sending awaits its senders. *)
    Lemma sending_at : forall k w did gs, nth_error (s_workers (abs s)) k = Some (Conc.WSend w did gs) ->
      k < nw /\ gs = map (ag s k) (seq 0 n) /\ exists rq, f_worker s k = WSpawn w rq did n.
    Proof.
      intros k w did gs E. apply worker_at in E. destruct E as [L E]. split; [exact L|]. unfold aw in E. rewrite quiet_waking in E.
      pose proof (Qw k) as A. destruct (f_worker s k); try discriminate E; try contradiction.
      subst i. injection E as -> -> ->. split; [reflexivity|]. eexists. reflexivity.
    Qed.
    Lemma sender_on : forall k w did gs j g, sender_at (abs s) k j w did gs g ->
      k < nw /\ j < n /\ (exists rq, f_worker s k = WSpawn w rq did n) /\
      match f_send s k j with GSend _ ps => g = Conc.GSend (snd ps) | GAck _ => g = Conc.GAck | GEnd _ => g = Conc.GDone | _ => False end.
    Proof.
      intros k w did gs j g [E G]. destruct (sending_at _ _ _ _ E) as (L & -> & rq & Q). split; [exact L|].
      assert (Lj : j < n) by (apply nth_error_Some_lt in G; now rewrite map_length, seq_length in G).
      rewrite nth_map_seq in G by exact Lj. injection G as G. split; [exact Lj|]. split; [eauto|].
      pose proof (i_send nw n s I k j) as B. rewrite Q in B. cbn [phase] in B. destruct B as [B _]. specialize (B Lj).
      pose proof (Qs k j) as A. unfold ag in G. destruct (f_send s k j); try contradiction; try discriminate; auto.
    Qed.
    Lemma idle_at : forall k w, nth_error (s_workers (abs s)) k = Some (Conc.WIdle w) -> f_worker s k = WIdle w.
    Proof.
      intros k w E. apply worker_at in E. destruct E as [L E]. unfold aw in E. rewrite quiet_waking in E.
      pose proof (Qw k) as A. destruct (f_worker s k); try discriminate E; try contradiction. congruence.
    Qed.

    Lemma cstep_moves : forall a', cstep (abs s) a' -> can_move s.
    Proof.
      intros a' C. pose proof Qm as M. remember (abs s) as a eqn:Ea. destruct C.
      - (* StepId *) destruct i as [|i]; [|subst st; destruct i; discriminate]. subst st. cbn in H. injection H as <-.
        destruct (f_main s); try contradiction; discriminate.
      - (* StepGive *) destruct i as [|i]; [|subst st; destruct i; discriminate]. subst st. cbn in H. injection H as <-.
        destruct (f_main s) eqn:E; try contradiction; try discriminate. apply idle_at in H1.
        eexists _, _; split; [exact (FsGive work absorb nw n s _ _ _ _ _ _ E H1)|intros Q]. apply (f_equal (fun s0 : fstate => f_main s0)) in Q. opn. cbn beta in Q. rewrite E in Q. discriminate.
      - (* StepClose *) subst st. cbn in H0. inversion H0 as [|? ? [C _] _]; subst. cbn in H. destruct (f_main s); try contradiction; discriminate.
      - (* StepShutdown *) subst st. cbn in H. destruct (f_main s) eqn:E; try contradiction; try discriminate. apply idle_at in H0.
        eexists _, _; split; [exact (FsStopGive work absorb nw n s _ _ _ _ E H0)|intros Q]. apply (f_equal (fun s0 : fstate => f_main s0)) in Q. opn. cbn beta in Q. rewrite E in Q. discriminate.
      - (* StepShutDone *) subst st. cbn in H. destruct (f_main s) eqn:E; try contradiction; try discriminate. injection H as H. lia.
      - (* StepCloseChan *) subst st. apply server_at in H0. destruct H0 as [L _]. cbn in H. destruct (f_main s) eqn:E; try contradiction; try discriminate. injection H as H. lia.
      - (* StepDo *) subst st. apply worker_at in H. destruct H as [L E]. unfold aw in E. rewrite quiet_waking in E.
        pose proof (Qw k) as A. destruct (f_worker s k) eqn:Ew; try discriminate E; try contradiction. injection E as -> -> ->.
        eexists _, _; split; [exact (FsDo work absorb nw n s _ _ _ _ _ _ _ Ew H0)|intros Q]. apply (f_equal (fun s0 : fstate => f_worker s0 k)) in Q. opn. cbn beta in Q. rewrite setf_same, Ew in Q. discriminate.
      - (* StepLock *) subst st. apply worker_at in H. destruct H as [L E]. unfold aw in E. rewrite quiet_waking in E.
        pose proof (Qw k) as A. destruct (f_worker s k) eqn:Ew; try discriminate E; try contradiction.
        eexists _, _; split; [exact (FsLock work absorb nw n s _ _ _ _ Ew (quiet_mutex H0))|intros Q]. apply (f_equal (fun s0 : fstate => f_worker s0 k)) in Q. opn. cbn beta in Q. rewrite setf_same, Ew in Q. discriminate.
      - (* StepWait *) subst st. apply worker_at in H. destruct H as [L E]. unfold aw in E. rewrite quiet_waking in E.
        pose proof (Qw k) as A. destruct (f_worker s k) eqn:Ew; try discriminate E; contradiction.
      - (* StepSpawn *) subst st. apply worker_at in H. destruct H as [L E]. unfold aw in E. rewrite quiet_waking in E.
        pose proof (Qw k) as A. destruct (f_worker s k) eqn:Ew; try discriminate E; contradiction.
      - (* StepPost *) subst st. apply sender_on in H. destruct H as (Lk & Lj & (rq & Q) & G). apply server_at in H0. destruct H0 as [_ ->].
        cbn [aserver v_st v_closed] in *. pose proof (Qv j) as A. destruct (f_srv s j) eqn:Ev; try discriminate; try contradiction.
        destruct (f_send s k j) eqn:Eg; try contradiction; try discriminate.
        eexists _, _; split; [exact (FsPost work absorb nw n s _ _ _ _ Eg Ev H2)|intros Z]. apply (f_equal (fun s0 : fstate => f_send s0 k j)) in Z. opn. cbn beta in Z. rewrite !setf_same, Eg in Z. discriminate.
      - (* StepSteal *) subst st. apply sender_on in H, H0. destruct H as (_ & _ & (rq & Q) & _). destruct H0 as (_ & _ & (rq' & Q') & _).
        exfalso. apply H1. apply (only_holder nw n s I); [now rewrite Q|now rewrite Q'].
      - (* StepAck *) subst st. apply sender_on in H. destruct H as (Lk & Lj & (rq & Q) & G). apply server_at in H0. destruct H0 as [_ ->].
        cbn [aserver v_st v_closed] in *. pose proof (Qv j) as A. destruct (f_srv s j) eqn:Ev; try discriminate; try contradiction.
        destruct (f_send s k j) eqn:Eg; try contradiction; try discriminate.
        eexists _, _; split; [exact (FsAck work absorb nw n s _ _ _ Eg Ev H2)|intros Z]. apply (f_equal (fun s0 : fstate => f_send s0 k j)) in Z. opn. cbn beta in Z. rewrite !setf_same, Eg in Z. discriminate.
      - (* StepStop *) subst st. apply server_at in H. destruct H as [L ->]. cbn [aserver v_st v_closed] in *.
        pose proof (Qv j) as A. destruct (f_srv s j) eqn:Ev; try discriminate; try contradiction.
        eexists _, _; split; [exact (FsSrvClosed work absorb nw n s _ Ev H1)|intros Z]. apply (f_equal (fun s0 : fstate => f_srv s0 j)) in Z. opn. cbn beta in Z. rewrite setf_same, Ev in Z. discriminate.
      - (* StepAckClosed *) subst st. apply sender_on in H. destruct H as (Lk & Lj & (rq & Q) & G). apply server_at in H0. destruct H0 as [_ ->].
        cbn [aserver v_st v_closed] in *. destruct (f_send s k j) eqn:Eg; try contradiction; try discriminate.
        eexists _, _; split; [exact (FsAckClosed work absorb nw n s _ _ _ Eg H1)|intros Z]. apply (f_equal (fun s0 : fstate => f_send s0 k j)) in Z. opn. cbn beta in Z. rewrite !setf_same, Eg in Z. discriminate.
      - (* StepAbsorb *) subst st. apply server_at in H. destruct H as [L ->]. cbn [aserver v_st v_closed] in *.
        pose proof (Qv j) as A. destruct (f_srv s j) eqn:Ev; try discriminate; contradiction.
      - (* StepServed *) subst st. apply server_at in H. destruct H as [L ->]. cbn [aserver v_st v_closed] in *.
        pose proof (Qv j) as A. destruct (f_srv s j) eqn:Ev; try discriminate; contradiction.
      - (* StepSent *) subst st. destruct (sending_at _ _ _ _ H) as (L & -> & rq & Q).
        assert (A : forall j, j < n -> exists r, f_send s k j = GEnd r).
        { intros j Lj. assert (B : sender_at (abs s) k j w did (map (ag s k) (seq 0 n)) (ag s k j)) by (split; [exact H|now apply nth_map_seq]).
          apply sender_on in B. destruct B as (_ & _ & _ & B).
          assert (Z : ag s k j = Conc.GDone) by (rewrite Forall_forall in H0; apply H0; apply in_map; apply in_seq; lia).
          rewrite Z in B. destruct (f_send s k j); try contradiction; try discriminate. eauto. }
        eexists _, _; split; [exact (FsWait work absorb nw n s _ _ _ _ Q A)|intros Z]. apply (f_equal (fun s0 : fstate => f_worker s0 k)) in Z. opn. cbn beta in Z. rewrite setf_same, Q in Z. discriminate.
    Qed.
    Lemma quiet_final : final (abs s) -> ffinal s.
    Proof.
      intros (_ & M & Fw & Fv). rewrite Forall_forall in Fw, Fv.
      assert (A : forall k, f_worker s k = WStop).
      { intros k. destruct (Nat.lt_ge_cases k nw) as [L|L]; [|now apply (r_wout nw n s R)].
        assert (E : aw n s k = Conc.WStop) by (apply Fw; unfold FineRefine.abs; cbn [s_workers]; apply in_map; apply in_seq; lia).
        unfold aw in E. rewrite quiet_waking in E. pose proof (Qw k) as B. destruct (f_worker s k); try discriminate; try contradiction. reflexivity. }
      split; [|split; [exact A|split; [|split]]].
      - pose proof Qm as B. cbn in M. destruct (f_main s); try discriminate; try contradiction. reflexivity.
      - intros k j. pose proof (i_send nw n s I k j) as B. rewrite A in B. exact B.
      - intros j. destruct (Nat.lt_ge_cases j n) as [L|L]; [|now apply (r_srv nw n s R)].
        assert (E : v_st (aserver s j) = VStop) by (apply Fv; unfold FineRefine.abs; cbn [s_servers]; apply in_map; apply in_seq; lia).
        cbn in E. pose proof (Qv j) as B. destruct (f_srv s j); try discriminate; try contradiction. reflexivity.
      - exact Qc.
    Qed.
    End Quiet.
  End Move.


  Theorem fine_progress : forall s, SI s -> RI s -> final (abs s) \/ (exists a', cstep (abs s) a') -> ffinal s \/ can_move s.
  Proof.
    intros s I R C.
    destruct (quiet_main s R) as [M|Qm]; [now right|].
    destruct (either_all _ _ nw (fun k _ => quiet_worker s R k)) as [M|Qw]; [now right|].
    destruct (either_all _ _ nw (fun k _ => either_all _ _ n (fun j _ => quiet_send s k j))) as [M|Qs]; [now right|].
    destruct (either_all _ _ n (fun j _ => quiet_srv s R j)) as [M|Qv]; [now right|].
    destruct (either_all _ _ n (fun j _ => quiet_closer s j)) as [M|Qc]; [now right|].
    assert (Qw' : forall k, match f_worker s k with WIdle _ | WDo _ _ _ _ | WLock _ _ _ | WPark _ _ _ | WStop => True | WSpawn _ _ _ i => i = n | _ => False end)
      by (intros k; destruct (Nat.lt_ge_cases k nw) as [L|L]; [now apply Qw|now rewrite (r_wout nw n s R k L)]).
    assert (Qs' : forall k j, match f_send s k j with GOff | GSend _ _ | GAck _ | GEnd _ => True | _ => False end).
    { intros k j. destruct (f_send s k j) eqn:E; try exact Logic.I;
      destruct (sender_place work nw n work_len s I R k j ltac:(congruence)) as (Lk & Lj & _); specialize (Qs k Lk j Lj); now rewrite E in Qs. }
    assert (Qv' : forall j, match f_srv s j with SRecv | SAck | SStop => True | _ => False end)
      by (intros j; destruct (Nat.lt_ge_cases j n) as [L|L]; [now apply Qv|now rewrite (r_srv nw n s R j L)]).
    assert (Qc' : forall j, f_closer s j <> CRun)
      by (intros j; destruct (Nat.lt_ge_cases j n) as [L|L]; [now apply Qc|rewrite (r_cout nw n s R j L); discriminate]).
    destruct C as [C|[a' C]]; [left; now apply quiet_final|right; eapply cstep_moves; eassumption].
  Qed.

  (** Bound on the steps that change something, from a bound on those of Model/Conc. *)
  Theorem fine_bounded : forall s0 bound, SI s0 -> RI s0 ->
    (forall len st, stepsn work absorb len (abs s0) st -> len <= bound) ->
    forall m s, fmoves m s0 s -> SI s /\ RI s /\ (exists len, stepsn work absorb len (abs s0) (abs s)) /\ m <= rank s0 + bound * (burst + 1).
  Proof.
    intros s0 bound I0 R0 B.
    assert (G : forall m s, fmoves m s0 s -> SI s /\ RI s /\ exists len, stepsn work absorb len (abs s0) (abs s) /\ m + rank s <= rank s0 + len * (burst + 1)).
    { intros m s H. remember s0 as a eqn:Ea in H. induction H as [a|m a s2 es H IH St|m a s2 es s3 H IH St N]; subst a.
      - split; [exact I0|]. split; [exact R0|]. exists 0. split; [constructor|lia].
      - now apply IH.
      - destruct (IH eq_refl) as (I & R & len & C & Q). split; [eapply si_step; eassumption|]. split; [eapply ri_step; eassumption|].
        destruct (refine_step work absorb nw n work_len _ _ _ I R St) as [[E [Z|Z]]|Z].
        + contradiction.
        + exists len. rewrite E. split; [exact C|lia].
        + exists (Datatypes.S len). split; [eapply stepsn_S; eassumption|]. pose proof (rank_grows _ _ _ St). lia. }
    intros m s H. destruct (G m s H) as (I & R & len & C & Q). split; [exact I|]. split; [exact R|]. split; [eauto|].
    pose proof (B len _ C) as L. assert (len * (burst + 1) <= bound * (burst + 1)) by (apply Nat.mul_le_mono_r; exact L). lia.
  Qed.

  Lemma fmoves_trace : forall m s0 s, fmoves m s0 s -> exists tr, fsteps work absorb nw n s0 tr s.
  Proof.
    intros m s0 s H. induction H as [|m a s2 es H [tr IH] St|m a s2 es s3 H [tr IH] St N].
    - exists []. constructor.
    - exists (tr ++ es). econstructor; eassumption.
    - exists (tr ++ es). econstructor; eassumption.
  Qed.
  Lemma closed_sends : forall s, SI s -> RI s -> fsends_on_closed s -> sends_on_closed (abs s).
  Proof.
    intros s I R (j & C & H). assert (L : j < n).
    { apply (i_closed nw n s I) in C. destruct (f_main s) eqn:E; cbn [closed_upto] in C; try lia.
      - pose proof (r_chan nw n s R _ E). lia.
      - pose proof (r_close nw n s R _ E). lia. }
    exists j, (aserver s j). split; [unfold FineRefine.abs; cbn [s_servers]; now apply nth_map_seq|]. split; [exact C|].
    destruct H as [H|(k & rq & ps & H)]; [left; cbn [aserver v_st]; now rewrite H|]. right.
    destruct (sender_place work nw n work_len s I R k j ltac:(congruence)) as (Lk & Lj & w & did & E).
    exists k, w, did, (map (ag s k) (seq 0 n)), (snd ps). split.
    - unfold FineRefine.abs. cbn [s_workers]. rewrite nth_map_seq by exact Lk. now rewrite (E s eq_refl).
    - rewrite nth_map_seq by exact Lj. unfold ag. now rewrite H.
  Qed.
  (** From a bound there are executions to the end. *)
  Theorem fine_complete : forall s0 bound, (forall m s, fmoves m s0 s -> m <= bound /\ (ffinal s \/ can_move s)) ->
    exists tr s, fsteps work absorb nw n s0 tr s /\ ffinal s.
  Proof.
    intros s0 bound X.
    assert (G : forall d m s, bound <= m + d -> fmoves m s0 s -> exists tr s', fsteps work absorb nw n s0 tr s' /\ ffinal s').
    { induction d as [|d IH]; intros m s L H; destruct (X m s H) as (Lb & [F|(es & s' & St & N)]).
      - destruct (fmoves_trace _ _ _ H) as [tr T]. eauto.
      - assert (H2 : fmoves (m + 1) s0 s') by (eapply fmoves_S; eassumption). apply X in H2. lia.
      - destruct (fmoves_trace _ _ _ H) as [tr T]. eauto.
      - apply (IH (m + 1) s'); [lia|]. eapply fmoves_S; eassumption. }
    apply (G bound 0 s0); [lia|constructor].
  Qed.
End FineLive.
