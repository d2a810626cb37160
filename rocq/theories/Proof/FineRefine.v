(** Every step of Model/Fine is one of Model/Conc, or none. *)
From Verif Require Import Model.Base Model.Conc Model.Fine.
From Verif Require Import Proof.Tactics Proof.FineInv.
Local Open Scope nat_scope.

Lemma nth_map_seq : forall A (f : nat -> A) m i, i < m -> nth_error (map f (seq 0 m)) i = Some (f i).
Proof.
  intros A f m i L. rewrite nth_error_map. replace (nth_error (seq 0 m) i) with (Some i); [reflexivity|].
  symmetry. rewrite (nth_error_nth' _ 0) by (now rewrite seq_length). now rewrite seq_nth.
Qed.
Lemma map_seq_ext : forall A (f g : nat -> A) m, (forall i, i < m -> f i = g i) -> map f (seq 0 m) = map g (seq 0 m).
Proof. intros A f g m E. apply map_ext_in. intros i Hi. apply in_seq in Hi. apply E. lia. Qed.
Lemma map_seq_upd : forall A (f g : nat -> A) m k x, f k = x -> (forall i, i <> k -> f i = g i) -> k < m ->
  map f (seq 0 m) = upd k x (map g (seq 0 m)).
Proof.
  intros A f g m k x Ex E L. apply nth_error_ext'. intros i. rewrite nth_error_upd.
  destruct (Nat.lt_ge_cases i m) as [Li|Li].
  - rewrite !nth_map_seq by exact Li. destruct (Nat.eqb_spec k i) as [->|N]; [now rewrite Ex|]. rewrite E; auto.
  - replace (nth_error (map f (seq 0 m)) i) with (@None A) by (symmetry; apply nth_error_None; rewrite map_length, seq_length; lia).
    replace (nth_error (map g (seq 0 m)) i) with (@None A) by (symmetry; apply nth_error_None; rewrite map_length, seq_length; lia).
    destruct (k =? i); reflexivity.
Qed.
Lemma map_seq_upd2 : forall A (f g : nat -> A) m k x, f k = x -> (forall i, i < m -> i <> k -> f i = g i) -> k < m ->
  map f (seq 0 m) = upd k x (map g (seq 0 m)).
Proof.
  intros A f g m k x Ex E L. rewrite <- (map_seq_upd A (fun i => if i =? k then x else g i) g m k x); auto.
  - apply map_seq_ext. intros i Li. destruct (Nat.eqb_spec i k) as [->|N]; auto.
  - now rewrite Nat.eqb_refl.
  - intros i N. destruct (Nat.eqb_spec i k); [contradiction|reflexivity].
Qed.

Section FineRefine.
  Context {W D P S : Type}.
  Variable work : W -> N -> D -> result (W * list (list P)).
  Variable absorb : S -> P -> S.
  Variables nw n : nat.
  Hypothesis work_len : forall w did d w' bs, work w did d = Ok (w', bs) -> length bs = n.
  Notation fstate := (@fstate W D P S).
  Notation fstep := (@fstep W D P S work absorb nw n).
  Notation fsteps := (@fsteps W D P S work absorb nw n).
  Notation fworker := (@fworker W D P).
  Notation fsender := (@fsender P).
  Notation SI := (@SI W D P S nw n).
  Notation cstep := (@step W D P S work absorb).

  (** What worker k has gathered. *)
  Definition batches (s : fstate) (k : nat) : list (list P) := map (fun j => snd (f_d s k j)) (seq 0 n).
  Definition ag (s : fstate) (k j : nat) : @gstate P :=
    match f_send s k j with
    | GOff => Conc.GSend (snd (f_d s k j))
    | GStart _ ps | GSend _ ps => Conc.GSend (snd ps)
    | GAck _ => Conc.GAck
    | GReset _ | GWg _ | GEnd _ => Conc.GDone
    end.
  (** The document id has been set, and the waiting workers not yet woken. *)
  Definition waking (s : fstate) : bool :=
    match f_mutex s with Some k => match f_worker s k with WBcast _ _ _ => true | _ => false end | None => false end.
  Definition aw (s : fstate) (k : nat) : @wstate W D P :=
    match f_worker s k with
    | WIdle w => Conc.WIdle w
    | WGot w _ did d | WDo w _ did d => Conc.WDo w did d
    | WQuit _ | WStop => Conc.WStop
    | WStore w _ did bs _ => Conc.WLock w did bs
    | WLock w _ did => Conc.WLock w did (batches s k)
    | WChk w _ did | WReg w _ did _ => Conc.WChk w did (batches s k)
    | WPark w _ did => if waking s then Conc.WLock w did (batches s k) else Conc.WWait w did (batches s k)
    | WSpawn w _ did _ | WGo w _ did _ _ => Conc.WSend w did (map (ag s k) (seq 0 n))
    | WSet w _ did => Conc.WSend w did (repeat Conc.GDone n)
    | WBcast w _ _ | WUnl w => Conc.WIdle w
    end.
  Definition av (v : @fserver P) : @vstate P :=
    match v with SRead | SRecv => VRecv | SBusy _ ps => VBusy ps | SAck => VAck | SEnd | SStop => VStop end.
  Definition aserver (s : fstate) (j : nat) : @server P S := MkServer (av (f_srv s j)) (f_shard s j) (f_closed s j).
  Definition aclient (m : @fmain D) : @client D :=
    match m with
    | FAdd docs => MkClient None docs
    | FReq did d docs | FSend _ did d docs => MkClient (Some (did, d)) docs
    | _ => MkClient None []
    end.
  Definition amain (m : @fmain D) : mstate :=
    match m with
    | FAdd _ | FReq _ _ _ | FSend _ _ _ _ => MRun
    | FStop k => MClose k
    | FStopSend _ k => MClose (k + 1)
    | FChan j | FClose j => MChan j
    | FFiles | FGo _ | FEnd => MChan n
    end.
  Definition amutex (s : fstate) : option nat :=
    match f_mutex s with
    | Some k => match f_worker s k with WBcast _ _ _ | WUnl _ => None | _ => Some k end
    | None => None
    end.
  Definition abs (s : fstate) : @state W D P S :=
    MkState [aclient (f_main s)] (f_next s) (amain (f_main s)) (map (aw s) (seq 0 nw)) (amutex s) (f_mono s) (map (aserver s) (seq 0 n)).

  (** No posts are left over in s.d. *)
  Definition clean (w : fworker) : bool :=
    match w with WIdle _ | WGot _ _ _ _ | WQuit _ | WDo _ _ _ _ | WSet _ _ _ | WBcast _ _ _ | WUnl _ | WStop => true | _ => false end.
  Record RI (s : fstate) : Prop := {
    r_clean : forall k j, clean (f_worker s k) = true -> snd (f_d s k j) = [];
    r_out : forall k j, n <= j -> snd (f_d s k j) = [];
    r_store : forall k w rq did bs i, f_worker s k = WStore w rq did bs i -> length bs = n /\ i <= n /\
      forall j, snd (f_d s k j) = if j <? i then nth j bs [] else [];
    r_cleared : forall k j, cleared (f_send s k j) = true -> snd (f_d s k j) = [];
    r_spawn : forall k w rq did i, f_worker s k = WSpawn w rq did i -> i <= n;
    r_go : forall k w rq did i ps, f_worker s k = WGo w rq did i ps -> i < n /\ ps = f_d s k i;
    r_reg : forall k w rq did b, f_worker s k = WReg w rq did b -> b = false /\ f_mono s <> sub32 did 1;
    r_chan : forall j, f_main s = FChan j -> j <= n;
    r_close : forall j, f_main s = FClose j -> j < n;
    r_srv : forall j, n <= j -> f_srv s j = SStop;
    r_cout : forall j, n <= j -> f_closer s j = COff;
    r_wout : forall k, nw <= k -> f_worker s k = WStop;
    r_fgo : forall i, f_main s = FGo i -> i <= n /\ forall j, j < i -> f_closer s j <> COff;
    r_end : f_main s = FEnd -> forall j, j < n -> f_closer s j = CDone
  }.

  Ltac cases :=
    repeat match goal with
    | H : context [setf ?i _ _ ?j] |- _ => destruct (Nat.eq_dec j i); [subst; rewrite setf_same in *|rewrite (setf_other _ i j) in * by assumption]
    | |- context [setf ?i _ _ ?j] => destruct (Nat.eq_dec j i); [subst; rewrite setf_same in *|rewrite (setf_other _ i j) in * by assumption]
    end; try contradiction; try match goal with H : ?x <> ?x |- _ => exfalso; apply H; reflexivity end.
  Ltac opn := unfold set_worker, set_d, set_send, set_srv, with_main, with_next, with_count, with_workers, with_d, with_send, with_mutex, with_mono, with_srv, with_shard, with_closed, with_closer in *;
    cbn [f_main f_next f_count f_worker f_d f_send f_mutex f_mono f_srv f_shard f_closed f_closer] in *.
  Ltac flag := try match goal with H : f_worker _ _ = WReg _ _ _ ?b |- _ => destruct b end.

  Lemma wait_clean : forall s, SI s -> RI s -> forall k w rq did, f_worker s k = WSpawn w rq did n ->
    (forall j, j < n -> exists r, f_send s k j = GEnd r) -> forall j, snd (f_d s k j) = [].
  Proof.
    intros s I R k w rq did H H0 j. destruct (Nat.lt_ge_cases j n) as [L|L]; [|now apply (r_out s R)].
    destruct (H0 j L) as [r Z]. apply (r_cleared s R). now rewrite Z.
  Qed.

  Lemma ri_step : forall s es s', SI s -> RI s -> fstep s es s' -> RI s'.
  Proof.
    intros s es s' I R St. constructor.
    - intros k j C. pose proof (r_clean s R) as A.
      destruct St; flag; opn; try (now apply A); cases; try (now apply A); cbn [clean snd nil_slice] in *; try discriminate; try reflexivity; try (now apply A; rewrite ?H, ?H0).
      + eapply wait_clean; eassumption.
      + apply A. destruct (f_worker s k); cbn in *; congruence.
    - intros k j L. pose proof (r_out s R) as A. destruct St; opn; try (now apply A); cases; try (now apply A); [lia|reflexivity].
    - intros k w0 rq0 did0 bs0 i0 E. pose proof (r_store s R) as A. pose proof (r_clean s R) as B.
      destruct St; flag; opn; try (now eapply A; eassumption); cases; try (now eapply A; eassumption); try discriminate.
      + (* FsDo *) injection E as <- <- <- <- <-. split; [eapply work_len; eassumption|]. split; [lia|]. intros j. apply B. now rewrite H.
      + (* FsStore *) injection E as <- <- <- <- <-. destruct (A _ _ _ _ _ _ H) as (A1 & A2 & A3). split; [exact A1|]. split; [lia|].
        intros j0. destruct (Nat.eq_dec j0 j) as [->|Nj].
        * rewrite setf_same. cbn [snd]. rewrite A3. replace (j <? j) with false by (symmetry; apply Nat.ltb_irrefl).
          replace (j <? j + 1) with true by (symmetry; apply Nat.ltb_lt; lia). reflexivity.
        * rewrite setf_other by exact Nj. rewrite A3. replace (j0 <? j + 1) with (j0 <? j); [reflexivity|].
          destruct (Nat.ltb_spec j0 j), (Nat.ltb_spec j0 (j + 1)); try reflexivity; lia.
      + (* FsStoreNone *) injection E as <- <- <- <- <-. destruct (A _ _ _ _ _ _ H) as (A1 & A2 & A3). split; [exact A1|]. split; [lia|].
        intros j0. rewrite A3. destruct (Nat.eq_dec j0 j) as [->|Nj].
        * rewrite H1. destruct (j <? j), (j <? j + 1); reflexivity.
        * replace (j0 <? j + 1) with (j0 <? j); [reflexivity|]. destruct (Nat.ltb_spec j0 j), (Nat.ltb_spec j0 (j + 1)); try reflexivity; lia.
      + (* FsBcast *) destruct (f_worker s k) eqn:Q; try discriminate. cbn in E. injection E as -> -> -> -> ->. eapply A; eassumption.
      + (* FsReset *) exfalso. destruct (sender_worker nw n s I k0 j) as (? & ? & Ph & _); [congruence|]. rewrite E in Ph. discriminate.
    - intros k j C. pose proof (r_cleared s R) as A.
      destruct St; opn; try (now apply A); cases; try (now apply A); cbn [cleared snd nil_slice] in *; try discriminate; try reflexivity.
      + (* FsStore *) exfalso. pose proof (i_send nw n s I k0 j0) as Q. rewrite H in Q. cbn [phase] in Q. rewrite Q in C. discriminate.
      + (* FsWg *) apply A. now rewrite H.
    - intros k w0 rq0 did0 i0 E. pose proof (r_spawn s R) as A.
      destruct St; flag; opn; try (now eapply A; eassumption); cases; try (now eapply A; eassumption); try discriminate.
      + injection E as <- <- <- <-. lia.
      + injection E as <- <- <- <-. destruct (r_go s R _ _ _ _ _ _ H). lia.
      + destruct (f_worker s k) eqn:Q; try discriminate. cbn in E. injection E as -> -> -> ->. eapply A; eassumption.
    - intros k w0 rq0 did0 i0 ps0 E. pose proof (r_go s R) as A.
      destruct St; flag; opn; try (now eapply A; eassumption); cases; try (now eapply A; eassumption); try discriminate.
      + injection E as <- <- <- <- <-. auto.
      + destruct (f_worker s k) eqn:Q; try discriminate. cbn in E. injection E as -> -> -> -> ->. eapply A; eassumption.
      + (* FsReset *) destruct (A _ _ _ _ _ _ E) as [A1 A2]. split; [exact A1|]. exfalso.
        destruct (sender_worker nw n s I k0 j) as (? & ? & Ph & L & _); [congruence|]. rewrite E in Ph. injection Ph as <- <-. lia.
    - intros k w0 rq0 did0 b0 E. pose proof (r_reg s R) as A. pose proof (i_mutex nw n s I) as M.
      destruct St; opn; try (now eapply A; eassumption); cases; try (now eapply A; eassumption); try discriminate.
      + injection E as <- <- <- <-. auto.
      + destruct b; discriminate.
      + (* FsSet *) exfalso. apply n0. assert (f_mutex s = Some k) by (apply M; now rewrite E). assert (f_mutex s = Some k0) by (apply M; now rewrite H). congruence.
      + (* FsBcast *) exfalso. apply n0. destruct (f_worker s k) eqn:Q; try discriminate.
        assert (f_mutex s = Some k) by (apply M; now rewrite Q). assert (f_mutex s = Some k0) by (apply M; now rewrite H). congruence.
    - intros j E. destruct St; opn; try (now apply (r_chan s R)); try discriminate.
      + injection E as <-. lia.
      + injection E as <-. pose proof (r_close s R _ H). lia.
    - intros j E. destruct St; opn; try (now apply (r_close s R)); try discriminate. injection E as <-. assumption.
    - intros j L. pose proof (r_srv s R j L) as A.
      destruct St; opn; try exact A; cases; try exact A; try (rewrite A in *; discriminate); try (rewrite A in *; congruence); lia.
    - intros j L. pose proof (r_cout s R j L) as A.
      destruct St; opn; try exact A; cases; try exact A; try congruence; lia.
    - intros k L. pose proof (r_wout s R k L) as A.
      destruct St; flag; opn; try exact A; cases; try exact A; try congruence. now rewrite A.
    - intros i E. pose proof (r_fgo s R) as A.
      destruct St; opn; try (now apply A); try discriminate.
      + injection E as <-. split; [lia|]. intros; lia.
      + injection E as <-. destruct (A _ H) as [A1 A2]. split; [lia|]. intros j0 L. cases; [discriminate|]. apply A2. lia.
      + destruct (A _ E) as [A1 A2]. split; [exact A1|]. intros j0 L. cases; [discriminate|]. now apply A2.
    - intros E. pose proof (r_end s R) as A. destruct St; opn; try (now apply A); try discriminate; try assumption.
      intros j0 L. cases; [reflexivity|]. now apply A.
  Qed.

  (** How many steps Model/Conc does not see are ahead, as far as one can tell. *)
  Definition mrank (m : @fmain D) : nat :=
    match m with FReq _ _ _ | FStop _ => 1 | FChan _ => 2 * n + 5 | FClose _ => 2 * n + 4 | FFiles => 2 * n + 3 | FGo j => 2 * (n - j) + 2 | _ => 0 end.
  Definition wrank (w : fworker) : nat :=
    match w with
    | WGot _ _ _ _ | WQuit _ | WChk _ _ _ | WUnl _ => 1
    | WBcast _ _ _ => 2
    | WStore _ _ _ _ j => n - j + 1
    | WSpawn _ _ _ i => 3 * (n - i) + 1
    | WGo _ _ _ i _ => 3 * (n - i)
    | _ => 0
    end.
  Definition grank (g : fsender) : nat := match g with GStart _ _ | GWg _ => 1 | GReset _ => 2 | _ => 0 end.
  Definition srank (v : @fserver P) : nat := match v with SRead | SEnd => 1 | _ => 0 end.
  Definition crank (c : fcloser) : nat := match c with CDone => 0 | _ => 1 end.
  Fixpoint sumn (f : nat -> nat) (m : nat) : nat := match m with O => O | Datatypes.S m => sumn f m + f m end.
  Definition rank (s : fstate) : nat :=
    mrank (f_main s) + sumn (fun k => wrank (f_worker s k)) nw + sumn (fun k => sumn (fun j => grank (f_send s k j)) n) nw +
    sumn (fun j => srank (f_srv s j)) n + sumn (fun j => crank (f_closer s j)) n.

  Lemma sumn_ext : forall f g m, (forall i, i < m -> f i = g i) -> sumn f m = sumn g m.
  Proof. clear. intros f g m. induction m as [|m IH]; intros E; [reflexivity|]. cbn [sumn]. rewrite IH by (intros; apply E; lia). now rewrite E by lia. Qed.
  Lemma sumn_setf : forall A (r : A -> nat) f k x m, k < m -> sumn (fun i => r (setf k x f i)) m + r (f k) = sumn (fun i => r (f i)) m + r x.
  Proof.
    clear. intros A r f k x m. induction m as [|m IH]; intros L; [lia|]. cbn [sumn]. destruct (Nat.eq_dec k m) as [->|N].
    - rewrite setf_same. replace (sumn (fun i => r (setf m x f i)) m) with (sumn (fun i => r (f i)) m); [lia|].
      apply sumn_ext. intros i Li. rewrite setf_other by lia. reflexivity.
    - rewrite (setf_other A k m) by lia. specialize (IH ltac:(lia)). lia.
  Qed.
  Lemma sumn_setf_out : forall A (r : A -> nat) f k x m, m <= k -> sumn (fun i => r (setf k x f i)) m = sumn (fun i => r (f i)) m.
  Proof. clear. intros A r f k x m L. apply sumn_ext. intros i Li. rewrite setf_other by lia. reflexivity. Qed.
  Lemma sumn_setf_le : forall A (r : A -> nat) f k x m, sumn (fun i => r (setf k x f i)) m <= sumn (fun i => r (f i)) m + r x.
  Proof.
    clear. intros A r f k x m. destruct (Nat.lt_ge_cases k m) as [L|L]; [pose proof (sumn_setf A r f k x m L); lia|].
    rewrite sumn_setf_out by exact L. lia.
  Qed.
  Lemma sumn_zero : forall m, sumn (fun _ => grank (@GOff P)) m = 0.
  Proof. clear. intros m. induction m as [|m IH]; cbn [sumn]; [reflexivity|now rewrite IH]. Qed.
  Lemma send_rank : forall (f : nat -> nat -> fsender) k j g, k < nw -> j < n ->
    sumn (fun k' => sumn (fun j' => grank (setf k (setf j g (f k)) f k' j')) n) nw + grank (f k j) =
    sumn (fun k' => sumn (fun j' => grank (f k' j')) n) nw + grank g.
  Proof.
    clear. intros f k j g Lk Lj. pose proof (sumn_setf _ (fun F => sumn (fun j' => grank (F j')) n) f k (setf j g (f k)) nw Lk) as A.
    pose proof (sumn_setf _ grank (f k) j g n Lj) as B. cbn beta in A. lia.
  Qed.

  Definition is_bcast (w : fworker) : bool := match w with WBcast _ _ _ => true | _ => false end.
  Definition is_free (w : fworker) : bool := match w with WBcast _ _ _ | WUnl _ => true | _ => false end.
  Lemma waking_eq : forall s s' : fstate, f_mutex s' = f_mutex s -> (forall k, is_bcast (f_worker s' k) = is_bcast (f_worker s k)) -> waking s' = waking s.
  Proof.
    intros s s' M E. unfold waking. rewrite M. destruct (f_mutex s) as [k|]; [|reflexivity]. specialize (E k).
    destruct (f_worker s' k), (f_worker s k); cbn in E; congruence || reflexivity.
  Qed.
  Lemma amutex_eq : forall s s' : fstate, f_mutex s' = f_mutex s -> (forall k, is_free (f_worker s' k) = is_free (f_worker s k)) -> amutex s' = amutex s.
  Proof.
    intros s s' M E. unfold amutex. rewrite M. destruct (f_mutex s) as [k|]; [|reflexivity]. specialize (E k).
    destruct (f_worker s' k), (f_worker s k); cbn in E; congruence || reflexivity.
  Qed.
  Lemma batches_ext : forall (s s' : fstate) k, (forall j, f_d s' k j = f_d s k j) -> batches s' k = batches s k.
  Proof. intros s s' k E. apply map_seq_ext. intros j _. now rewrite E. Qed.
  Lemma ag_ext : forall (s s' : fstate) k, (forall j, f_d s' k j = f_d s k j) -> (forall j, f_send s' k j = f_send s k j) -> map (ag s' k) (seq 0 n) = map (ag s k) (seq 0 n).
  Proof. intros s s' k E E'. apply map_seq_ext. intros j _. unfold ag. now rewrite E, E'. Qed.
  Lemma aw_ext : forall (s s' : fstate) k, f_worker s' k = f_worker s k -> (forall j, f_d s' k j = f_d s k j) -> (forall j, f_send s' k j = f_send s k j) ->
    waking s' = waking s -> aw s' k = aw s k.
  Proof.
    intros s s' k E Ed Es Ew. unfold aw. rewrite E, Ew, (batches_ext s s' k Ed), (ag_ext s s' k Ed Es). reflexivity.
  Qed.
  Lemma abs_eq : forall s s' : fstate, aclient (f_main s') = aclient (f_main s) -> f_next s' = f_next s -> amain (f_main s') = amain (f_main s) ->
    (forall k, k < nw -> aw s' k = aw s k) -> amutex s' = amutex s -> f_mono s' = f_mono s -> (forall j, j < n -> aserver s' j = aserver s j) -> abs s' = abs s.
  Proof.
    intros s s' H1 H2 H3 H4 H5 H6 H7. unfold abs. rewrite H1, H2, H3, H5, H6. f_equal; now apply map_seq_ext.
  Qed.
  Lemma step_to : forall a b b' : @state W D P S, cstep a b -> b = b' -> cstep a b'.
  Proof. intros; now subst. Qed.
  Lemma holder_state : forall s, SI s -> forall k, holds (f_worker s k) = true -> f_mutex s = Some k.
  Proof. intros s I k H. now apply (i_mutex nw n s I). Qed.
  Lemma only_holder : forall s, SI s -> forall k k', holds (f_worker s k) = true -> holds (f_worker s k') = true -> k = k'.
  Proof. intros s I k k' H H'. apply (holder_state s I) in H, H'. congruence. Qed.

  Lemma live_lt : forall s, SI s -> forall k, worker_rq (f_worker s k) <> None \/ f_worker s k <> WStop -> RI s -> k < nw.
  Proof.
    intros s I k H R. destruct (Nat.lt_ge_cases k nw) as [L|L]; [exact L|]. rewrite (r_wout s R k L) in H. cbn in H. destruct H as [H|H]; contradiction.
  Qed.
  Lemma srv_lt : forall s, RI s -> forall j, f_srv s j <> SStop -> j < n.
  Proof. intros s R j H. destruct (Nat.lt_ge_cases j n) as [L|L]; [exact L|]. apply (r_srv s R) in L. contradiction. Qed.
  Ltac rkw I R := unfold rank; opn;
    match goal with |- context [sumn (fun i => wrank (setf ?k ?x (f_worker ?s) i)) nw] =>
      let Q := fresh "Q" in assert (Q : k < nw) by (apply (live_lt s I k); [right; congruence|exact R]);
      apply (sumn_setf _ wrank (f_worker s) k x nw) in Q;
      match goal with H : f_worker s k = _ |- _ => rewrite H in Q end; cbn [wrank] in *
    end.

  (** A step of a worker that leaves what it stands for. *)
  Ltac stutter_w I R := left; split; [apply abs_eq; opn; auto;
    [ let k' := fresh "k'" in let L := fresh "L" in intros k' L;
      match goal with |- context [setf ?k _ (f_worker ?s)] => destruct (Nat.eq_dec k' k) as [->|Nk] end
    | match goal with |- amutex _ = _ => apply amutex_eq; opn; auto; intros; cases; auto; match goal with H : f_worker _ _ = _ |- _ => now rewrite H end end ]
    | right; try (rkw I R; lia) ].

  Lemma sender_place : forall s, SI s -> RI s -> forall k j, f_send s k j <> GOff ->
    k < nw /\ j < n /\ exists w did, forall s'' : fstate, f_worker s'' k = f_worker s k -> aw s'' k = Conc.WSend w did (map (ag s'' k) (seq 0 n)).
  Proof.
    intros s I R k j N. destruct (sender_worker nw n s I k j N) as (rq & i & Ph & Lj & _).
    destruct (f_worker s k) eqn:E; try discriminate; cbn in Ph; injection Ph as -> ->.
    - split; [apply (i_range nw n s I); now rewrite E|]. split; [pose proof (r_spawn s R _ _ _ _ _ E); lia|].
      exists w, did. intros s'' E''. unfold aw. now rewrite E''.
    - split; [apply (i_range nw n s I); now rewrite E|]. split; [destruct (r_go s R _ _ _ _ _ _ E); lia|].
      exists w, did. intros s'' E''. unfold aw. now rewrite E''.
  Qed.
  (** A sender's step that leaves what it stands for. *)
  Lemma stutter_send : forall s s' k j, SI s -> RI s -> f_send s k j <> GOff -> f_send s' k j <> GOff -> ag s' k j = ag s k j ->
    f_main s' = f_main s -> f_next s' = f_next s -> f_worker s' = f_worker s -> f_mutex s' = f_mutex s -> f_mono s' = f_mono s ->
    f_srv s' = f_srv s -> f_shard s' = f_shard s -> f_closed s' = f_closed s ->
    (forall k' j', k' <> k \/ j' <> j -> f_send s' k' j' = f_send s k' j' /\ f_d s' k' j' = f_d s k' j') -> abs s' = abs s.
  Proof.
    intros s s' k j I R N N' A Hm Hn Hw Hx Ho Hv Hs Hc Hk.
    assert (Wk : waking s' = waking s) by (unfold waking; now rewrite Hx, Hw).
    apply abs_eq; rewrite ?Hm; auto.
    - intros k' L. destruct (Nat.eq_dec k' k) as [->|Nk].
      + destruct (sender_place s I R k j N) as (_ & _ & w & did & E). rewrite (E s eq_refl), (E s') by now rewrite Hw. f_equal.
        apply map_seq_ext. intros j' _. destruct (Nat.eq_dec j' j) as [->|Nj]; [exact A|].
        destruct (Hk k j' (or_intror Nj)) as [E1 E2]. unfold ag. now rewrite E1, E2.
      + apply aw_ext; auto; [now rewrite Hw| |]; intros j'; now destruct (Hk k' j' (or_introl Nk)).
    - unfold amutex. now rewrite Hx, Hw.
    - intros j' _. unfold aserver. now rewrite Hv, Hs, Hc.
  Qed.
  Ltac rkg I R := unfold rank; opn;
    match goal with H : f_send ?s ?k ?j = _ |- context [setf ?k (setf ?j ?g (f_send ?s ?k)) (f_send ?s)] =>
      let Q := fresh "Q" in assert (Q : f_send s k j <> GOff) by congruence;
      apply (sender_place s I R) in Q; destruct Q as (?Lk & ?Lj & _);
      let Q' := fresh "Q" in pose proof (send_rank (f_send s) k j g Lk Lj) as Q'; rewrite H in Q'; cbn [grank] in *
    end.
  Ltac rks R := unfold rank; opn;
    match goal with H : f_srv ?s ?j = _ |- context [setf ?j ?g (f_srv ?s)] =>
      let Q := fresh "Q" in assert (Q : f_srv s j <> SStop) by congruence;
      apply (srv_lt s R) in Q; apply (sumn_setf _ srank (f_srv s) j g n) in Q; rewrite H in Q; cbn [srank] in *
    end.
  Lemma send_workers : forall s s' k j, SI s -> RI s -> f_send s k j <> GOff ->
    f_worker s' = f_worker s -> f_mutex s' = f_mutex s -> f_d s' = f_d s ->
    (forall k' j', k' <> k \/ j' <> j -> f_send s' k' j' = f_send s k' j') ->
    exists w did, k < nw /\ j < n /\ nth_error (map (aw s) (seq 0 nw)) k = Some (Conc.WSend w did (map (ag s k) (seq 0 n))) /\
      map (aw s') (seq 0 nw) = upd k (Conc.WSend w did (upd j (ag s' k j) (map (ag s k) (seq 0 n)))) (map (aw s) (seq 0 nw)).
  Proof.
    intros s s' k j I R N Hw Hx Hd Hk. destruct (sender_place s I R k j N) as (Lk & Lj & w & did & E). exists w, did.
    assert (Wk : waking s' = waking s) by (unfold waking; now rewrite Hx, Hw).
    split; [exact Lk|]. split; [exact Lj|]. split; [rewrite nth_map_seq by exact Lk; now rewrite (E s eq_refl)|].
    apply map_seq_upd; [|intros k' Nk|exact Lk].
    - rewrite (E s') by now rewrite Hw. f_equal. apply map_seq_upd; [reflexivity| |exact Lj]. intros j' Nj. unfold ag. rewrite (Hk k j' (or_intror Nj)). now rewrite Hd.
    - apply aw_ext; [now rewrite Hw|intros; now rewrite Hd|intros j'; apply Hk; now left|exact Wk].
  Qed.

  Theorem refine_step : forall s es s', SI s -> RI s -> fstep s es s' -> (abs s' = abs s /\ (s' = s \/ rank s' < rank s)) \/ cstep (abs s) (abs s').
  Proof.
    intros s es s' I R St. destruct St.
    - left; auto.
    - (* FsId *) right. eapply step_to; [apply (StepId work absorb (abs s) 0 (aclient (f_main s)) d docs); unfold abs; cbn; rewrite ?H; reflexivity|].
      unfold abs, Conc.set_next, Conc.set_client. cbn [s_clients s_next s_main s_workers s_mutex s_mono s_servers upd]. rewrite H. reflexivity.
    - (* FsNew *) left. split; [apply abs_eq; opn; auto; rewrite H; reflexivity|right; unfold rank; opn; rewrite H; cbn [mrank]; try lia].
    - (* FsGive *) right. assert (L : k < nw) by (apply (i_range nw n s I); now rewrite H0).
      assert (Wk : waking (set_worker k (WGot w rq did d) (with_main (FAdd docs) s)) = waking s)
        by (apply waking_eq; opn; auto; intros; cases; auto; now rewrite H0).
      eapply step_to; [apply (StepGive work absorb (abs s) 0 (aclient (f_main s)) did d k w); unfold abs; cbn [s_clients s_workers]; rewrite ?H; try reflexivity|].
      + rewrite nth_map_seq by exact L. unfold aw. now rewrite H0.
      + unfold abs, Conc.set_worker, Conc.set_client. cbn [s_clients s_next s_main s_workers s_mutex s_mono s_servers upd]. rewrite H. cbn [aclient cl_docs amain].
        f_equal.
        * symmetry. apply map_seq_upd; [|intros i Ni; apply aw_ext; opn; auto; now rewrite setf_other|exact L].
          unfold aw. opn. now rewrite setf_same.
        * symmetry. apply amutex_eq; opn; auto. intros; cases; auto. now rewrite H0.
    - (* FsBegin *) right. eapply step_to; [apply (StepClose work absorb (abs s)); unfold abs; cbn [s_main s_clients]; rewrite H; [reflexivity|]|].
      + constructor; [|constructor]. split; reflexivity.
      + unfold abs, Conc.set_main. cbn [s_clients s_next s_main s_workers s_mutex s_mono s_servers]. rewrite map_length, seq_length, H. reflexivity.
    - (* FsStopNew *) left. split; [apply abs_eq; opn; auto; rewrite H; reflexivity|right; unfold rank; opn; rewrite H; cbn [mrank]; try lia].
    - (* FsStopGive *) right. assert (L : k' < nw) by (apply (i_range nw n s I); now rewrite H0).
      assert (Wk : waking (set_worker k' (WQuit rq) (with_main (FStop k) s)) = waking s)
        by (apply waking_eq; opn; auto; intros; cases; auto; now rewrite H0).
      eapply step_to; [apply (StepShutdown work absorb (abs s) k k' w); unfold abs; cbn [s_main s_workers]; rewrite ?H|].
      + cbn [amain]. f_equal. lia.
      + rewrite nth_map_seq by exact L. unfold aw. now rewrite H0.
      + unfold abs, Conc.set_worker, Conc.set_main. cbn [s_clients s_next s_main s_workers s_mutex s_mono s_servers]. rewrite H. cbn [aclient amain].
        f_equal.
        * symmetry. apply map_seq_upd; [|intros i Ni; apply aw_ext; opn; auto; now rewrite setf_other|exact L].
          unfold aw. opn. now rewrite setf_same.
        * symmetry. apply amutex_eq; opn; auto. intros; cases; auto. now rewrite H0.
    - (* FsStopDone *) right. eapply step_to; [apply (StepShutDone work absorb (abs s)); unfold abs; cbn [s_main]; now rewrite H|].
      unfold abs, Conc.set_main. cbn [s_clients s_next s_main s_workers s_mutex s_mono s_servers]. rewrite H. reflexivity.
    - (* FsChanRead *) left. split; [apply abs_eq; opn; auto; rewrite H; reflexivity|right; unfold rank; opn; rewrite H; cbn [mrank]; try lia].
    - (* FsChanClose *) right. pose proof (r_close s R j H) as L.
      eapply step_to; [apply (StepCloseChan work absorb (abs s) j (aserver s j)); unfold abs; cbn [s_main s_servers]; rewrite ?H; [reflexivity|now apply nth_map_seq]|].
      unfold abs, Conc.set_main, Conc.set_server. cbn [s_clients s_next s_main s_workers s_mutex s_mono s_servers]. rewrite H. cbn [aclient amain].
      replace (j + 1) with (Datatypes.S j) by lia. f_equal. symmetry. apply map_seq_upd; [|intros i Ni; unfold aserver; opn; now rewrite setf_other|exact L].
      unfold aserver. opn. now rewrite setf_same.
    - (* FsChanDone *) left. split; [apply abs_eq; opn; auto; rewrite H; reflexivity|right; unfold rank; opn; rewrite H; cbn [mrank]; try lia].
    - left; auto.
    - left. split; [apply abs_eq; opn; auto; rewrite H; reflexivity|right; unfold rank; opn; rewrite H; cbn [mrank]; try lia].
    - left. split; [apply abs_eq; opn; auto; rewrite H; reflexivity|right; unfold rank; opn; rewrite H; cbn [mrank]; pose proof (sumn_setf_le _ crank (f_closer s) j CRun n) as Q; cbn [crank] in Q; lia].
    - left. split; [apply abs_eq; opn; auto; rewrite H; reflexivity|right; unfold rank; opn; rewrite H; cbn [mrank]; try lia].
    - left; auto.
    - left. split; [apply abs_eq; opn; auto|]. right. unfold rank. opn.
      assert (L : j < n) by (destruct (Nat.lt_ge_cases j n) as [L|L]; [exact L|]; rewrite (r_cout s R j L) in H; discriminate).
      pose proof (sumn_setf _ crank (f_closer s) j CDone n L) as Q. rewrite H in Q. cbn [crank] in Q. lia.
    - (* FsGot *) stutter_w I R; [unfold aw; opn; now rewrite setf_same, H|apply aw_ext; opn; auto; [now rewrite setf_other|apply waking_eq; opn; auto; intros; cases; auto; now rewrite H]].
    - (* FsQuit *) stutter_w I R; [unfold aw; opn; now rewrite setf_same, H|apply aw_ext; opn; auto; [now rewrite setf_other|apply waking_eq; opn; auto; intros; cases; auto; now rewrite H]].
    - left; auto.
    - (* FsDo *) right. assert (L : k < nw) by (apply (i_range nw n s I); now rewrite H).
      eapply step_to; [apply (StepDo work absorb (abs s) k w did d w' bs); unfold abs; cbn [s_workers]; [|exact H0]|].
      + rewrite nth_map_seq by exact L. unfold aw. now rewrite H.
      + unfold abs, Conc.set_worker. cbn [s_clients s_next s_main s_workers s_mutex s_mono s_servers]. f_equal.
        * symmetry. apply map_seq_upd; [|intros i Ni; apply aw_ext; opn; auto; [now rewrite setf_other|]|exact L].
          -- unfold aw. opn. now rewrite setf_same.
          -- apply waking_eq; opn; auto; intros; cases; auto; now rewrite H.
        * symmetry. apply amutex_eq; opn; auto. intros; cases; auto. now rewrite H.
    - (* FsStore *) stutter_w I R; [unfold aw; opn; now rewrite setf_same, H|apply aw_ext; opn; auto; [now rewrite setf_other|intros; now rewrite setf_other|apply waking_eq; opn; auto; intros; cases; auto; now rewrite H]].
    - (* FsStoreNone *) stutter_w I R; [unfold aw; opn; now rewrite setf_same, H|apply aw_ext; opn; auto; [now rewrite setf_other|apply waking_eq; opn; auto; intros; cases; auto; now rewrite H]].
    - (* FsStored *) stutter_w I R; [unfold aw; opn; rewrite setf_same, H; f_equal|apply aw_ext; opn; auto; [now rewrite setf_other|apply waking_eq; opn; auto; intros; cases; auto; now rewrite H]].
      destruct (r_store s R _ _ _ _ _ _ H) as (Lb & _ & Q). apply nth_error_ext'. intros j. unfold batches. opn.
      destruct (Nat.lt_ge_cases j n) as [Lj|Lj].
      + rewrite nth_map_seq by exact Lj. rewrite Q. replace (j <? n) with true by (symmetry; apply Nat.ltb_lt; exact Lj).
        symmetry. apply nth_error_nth'. lia.
      + replace (nth_error bs j) with (@None (list P)) by (symmetry; apply nth_error_None; lia). apply nth_error_None. rewrite map_length, seq_length. lia.
    - (* FsLock *) right. assert (L : k < nw) by (apply (i_range nw n s I); now rewrite H).
      eapply step_to; [apply (StepLock work absorb (abs s) k w did (batches s k)); unfold abs; cbn [s_workers s_mutex]|].
      + rewrite nth_map_seq by exact L. unfold aw. now rewrite H.
      + unfold amutex. now rewrite H0.
      + unfold abs, Conc.set_worker, Conc.set_mutex. cbn [s_clients s_next s_main s_workers s_mutex s_mono s_servers]. f_equal.
        * symmetry. apply map_seq_upd; [|intros i Ni; apply aw_ext; opn; auto; [now rewrite setf_other|]|exact L].
          -- unfold aw. opn. now rewrite setf_same.
          -- unfold waking. opn. now rewrite setf_same, H0.
        * unfold amutex. opn. now rewrite setf_same.
    - (* FsChkNo *) stutter_w I R; [unfold aw; opn; now rewrite setf_same, H|apply aw_ext; opn; auto; [now rewrite setf_other|apply waking_eq; opn; auto; intros; cases; auto; now rewrite H]].
    - (* FsPark *) right. assert (L : k < nw) by (apply (i_range nw n s I); now rewrite H). destruct (r_reg s R _ _ _ _ _ H) as [-> Nm].
      assert (M : f_mutex s = Some k) by (apply (holder_state s I); now rewrite H).
      eapply step_to; [apply (StepWait work absorb (abs s) k w did (batches s k)); unfold abs; cbn [s_workers s_mono]|].
      + rewrite nth_map_seq by exact L. unfold aw. now rewrite H.
      + exact Nm.
      + unfold abs, Conc.set_worker, Conc.set_mutex. cbn [s_clients s_next s_main s_workers s_mutex s_mono s_servers]. f_equal.
        * symmetry. apply map_seq_upd; [|intros i Ni; apply aw_ext; opn; auto; [now rewrite setf_other|]|exact L].
          -- unfold aw. opn. rewrite setf_same. unfold waking. opn. reflexivity.
          -- unfold waking. opn. now rewrite M, H.
    - (* FsChkYes *) right. assert (L : k < nw) by (apply (i_range nw n s I); now rewrite H).
      eapply step_to; [apply (StepSpawn work absorb (abs s) k w did (batches s k)); unfold abs; cbn [s_workers s_mono]|].
      + rewrite nth_map_seq by exact L. unfold aw. now rewrite H.
      + exact H0.
      + unfold abs, Conc.set_worker. cbn [s_clients s_next s_main s_workers s_mutex s_mono s_servers]. f_equal.
        * symmetry. apply map_seq_upd; [|intros i Ni; apply aw_ext; opn; auto; [now rewrite setf_other|]|exact L].
          -- unfold aw. opn. rewrite setf_same. f_equal. unfold batches. rewrite map_map. apply map_seq_ext. intros j _. unfold ag. opn.
             pose proof (i_send nw n s I k j) as Q. rewrite H in Q. cbn [phase] in Q. now rewrite Q.
          -- apply waking_eq; opn; auto; intros; cases; auto; now rewrite H.
        * symmetry. apply amutex_eq; opn; auto. intros; cases; auto. now rewrite H.
    - (* FsRange *) stutter_w I R; [unfold aw; opn; now rewrite setf_same, H|apply aw_ext; opn; auto; [now rewrite setf_other|apply waking_eq; opn; auto; intros; cases; auto; now rewrite H]].
    - (* FsSpawn *) stutter_w I R; [unfold aw; opn; rewrite setf_same, H; f_equal|apply aw_ext; opn; auto; [now rewrite setf_other|intros; now rewrite setf_other|apply waking_eq; opn; auto; intros; cases; auto; now rewrite H]|].
      apply map_seq_ext. intros j _. unfold ag. opn. rewrite setf_same. destruct (Nat.eq_dec j i) as [->|Nj]; [|now rewrite setf_other].
      rewrite setf_same. destruct (r_go s R _ _ _ _ _ _ H) as [_ ->]. pose proof (i_send nw n s I k i) as Q. rewrite H in Q. cbn [phase] in Q.
      destruct Q as [_ Q]. now rewrite (Q (le_n i)).
      rkw I R. destruct (r_go s R _ _ _ _ _ _ H) as [Li _].
      assert (Lk : k < nw) by (apply (i_range nw n s I); now rewrite H).
      pose proof (send_rank (f_send s) k i (GStart rq ps) Lk Li) as Q2.
      pose proof (i_send nw n s I k i) as Q3. rewrite H in Q3. cbn [phase] in Q3. destruct Q3 as [_ Q3]. rewrite (Q3 (le_n i)) in Q2. cbn [grank] in Q2. lia.
    - (* FsWait *) stutter_w I R; [unfold aw; opn; rewrite setf_same, H; f_equal|apply aw_ext; opn; auto; [now rewrite setf_other|intros; now rewrite setf_other|apply waking_eq; opn; auto; intros; cases; auto; now rewrite H]|].
      transitivity (map (fun _ => @Conc.GDone P) (seq 0 n)).
      + generalize 0. clear. induction n as [|m IH]; intros a; cbn [repeat seq map]; [reflexivity|]. f_equal. apply IH.
      + apply map_seq_ext. intros j Lj. unfold ag. destruct (H0 j Lj) as [r Z]. now rewrite Z.
      + rkw I R. assert (Lk : k < nw) by (apply (i_range nw n s I); now rewrite H).
        pose proof (sumn_setf _ (fun F => sumn (fun j' => grank (F j')) n) (f_send s) k (fun _ => GOff) nw Lk) as Q2. cbn beta in Q2.
        rewrite (sumn_zero n) in Q2. lia.
    - (* FsSet *) right. assert (L : k < nw) by (apply (i_range nw n s I); now rewrite H).
      assert (M : f_mutex s = Some k) by (apply (holder_state s I); now rewrite H).
      eapply step_to; [apply (StepSent work absorb (abs s) k w did (repeat Conc.GDone n)); unfold abs; cbn [s_workers]|].
      + rewrite nth_map_seq by exact L. unfold aw. now rewrite H.
      + apply Forall_forall. intros x Hx. now apply repeat_spec in Hx.
      + unfold abs, Conc.set_workers, Conc.set_mutex, Conc.set_mono. cbn [s_clients s_next s_main s_workers s_mutex s_mono s_servers]. f_equal.
        * symmetry. rewrite map_map. apply map_seq_upd; [|intros i Ni|exact L].
          -- unfold aw. opn. now rewrite setf_same.
          -- unfold aw. opn. rewrite setf_other by exact Ni.
             assert (Wn : waking s = false) by (unfold waking; now rewrite M, H).
             assert (Wn' : waking (MkF (f_main s) (f_next s) (f_count s) (setf k (WBcast w rq did) (f_worker s)) (f_d s) (f_send s) (f_mutex s) did (f_srv s) (f_shard s) (f_closed s) (f_closer s)) = true)
               by (unfold waking; opn; now rewrite M, setf_same).
             destruct (f_worker s i); cbn [wake]; try reflexivity. rewrite Wn, Wn'. reflexivity.
        * unfold amutex. opn. now rewrite M, setf_same.
    - (* FsBcast *) assert (M : f_mutex s = Some k) by (apply (holder_state s I); now rewrite H).
      left. split; [apply abs_eq; opn; auto|right; unfold rank; opn].
      + intros k' L. destruct (Nat.eq_dec k' k) as [->|Nk]; [unfold aw; opn; now rewrite setf_same, H|].
        unfold aw. opn. rewrite setf_other by exact Nk.
        assert (Wn : waking s = true) by (unfold waking; now rewrite M, H).
        destruct (f_worker s k'); cbn [fwake]; try reflexivity. now rewrite Wn.
      + unfold amutex. opn. now rewrite M, setf_same, H.
      + assert (L : k < nw) by (apply (i_range nw n s I); now rewrite H).
        pose proof (sumn_setf _ wrank (fun k' => fwake (f_worker s k')) k (WUnl w) nw L) as Q. cbn beta in Q; rewrite H in Q. cbn [fwake wrank] in Q.
        rewrite (sumn_ext (fun i => wrank (fwake (f_worker s i))) (fun i => wrank (f_worker s i)) nw) in Q by (intros i _; destruct (f_worker s i); reflexivity). lia.
    - (* FsUnlock *) assert (M : f_mutex s = Some k) by (apply (holder_state s I); now rewrite H).
      left. split; [apply abs_eq; opn; auto|right; rkw I R; lia].
      + intros k' L. destruct (Nat.eq_dec k' k) as [->|Nk]; [unfold aw; opn; now rewrite setf_same, H|].
        apply aw_ext; opn; auto; [now rewrite setf_other|]. unfold waking. opn. now rewrite M, H.
      + unfold amutex. opn. now rewrite M, H.
    - (* FsStart *) left. split; [apply (stutter_send s _ k j I R); opn; auto; try congruence|right; rkg I R; lia].
      + rewrite !setf_same. discriminate.
      + unfold ag. opn. now rewrite !setf_same, H.
      + intros k' j' [Q|Q]; cases; auto.
    - (* FsPost *) right. destruct (send_workers s (set_send k j (GAck rq) (set_srv j (SBusy (fst ps) (snd ps)) s)) k j I R) as (w & did & Lk & Lj & E1 & E2); auto; [congruence|opn; intros k' j' [Q|Q]; cases; auto|].
      unfold ag in E2 at 1. opn. rewrite !setf_same in E2.
      eapply step_to; [apply (StepPost work absorb (abs s) k w did (map (ag s k) (seq 0 n)) j (snd ps) (aserver s j))|].
      + split; [exact E1|]. rewrite nth_map_seq by exact Lj. unfold ag. now rewrite H.
      + now apply nth_map_seq.
      + unfold aserver. cbn. now rewrite H0.
      + exact H1.
      + unfold abs, Conc.set_worker, Conc.set_server. cbn [s_clients s_next s_main s_workers s_mutex s_mono s_servers]. rewrite E2. opn. f_equal.
        symmetry. apply map_seq_upd; [|intros i Ni; unfold aserver; opn; now rewrite setf_other|exact Lj]. unfold aserver. opn. now rewrite setf_same, H1.
    - (* FsSteal *) exfalso. apply H1. apply (sender_unique nw n s I k k' j j); congruence.
    - (* FsAck *) right. destruct (send_workers s (set_send k j (GReset rq) (set_srv j SRead s)) k j I R) as (w & did & Lk & Lj & E1 & E2); auto; [congruence|opn; intros k' j' [Q|Q]; cases; auto|].
      unfold ag in E2 at 1. opn. rewrite !setf_same in E2.
      eapply step_to; [apply (StepAck work absorb (abs s) k w did (map (ag s k) (seq 0 n)) j (aserver s j))|].
      + split; [exact E1|]. rewrite nth_map_seq by exact Lj. unfold ag. now rewrite H.
      + now apply nth_map_seq.
      + unfold aserver. cbn. now rewrite H0.
      + exact H1.
      + unfold abs, Conc.set_worker, Conc.set_server. cbn [s_clients s_next s_main s_workers s_mutex s_mono s_servers]. rewrite E2. opn. f_equal.
        symmetry. apply map_seq_upd; [|intros i Ni; unfold aserver; opn; now rewrite setf_other|exact Lj]. unfold aserver. opn. now rewrite setf_same, H1.
    - (* FsAckClosed *) exfalso. destruct (stopped_quiet nw n s I (closed_stopped nw n s I j H0)) as (_ & Q & _). rewrite Q in H. discriminate.
    - (* FsReset *) left. split; [apply (stutter_send s _ k j I R); opn; auto; try congruence|right; rkg I R; lia].
      + rewrite !setf_same. discriminate.
      + unfold ag. opn. now rewrite !setf_same, H.
      + intros k' j' [Q|Q]; cases; auto.
    - (* FsWg *) left. split; [apply (stutter_send s _ k j I R); opn; auto; try congruence|right; rkg I R; lia].
      + rewrite !setf_same. discriminate.
      + unfold ag. opn. now rewrite !setf_same, H.
      + intros k' j' [Q|Q]; cases; auto.
    - (* FsSrvRead *) left. split; [apply abs_eq; opn; auto; intros j0 L; unfold aserver; opn; cases; [now rewrite H|reflexivity]|right; rks R; lia].
    - (* FsSrvClosed *) right. assert (L : j < n) by (destruct (Nat.lt_ge_cases j n) as [|L]; [assumption|apply (r_srv s R) in L; congruence]).
      eapply step_to; [apply (StepStop work absorb (abs s) j (aserver s j)); unfold abs; cbn [s_servers]; [now apply nth_map_seq|unfold aserver; cbn; now rewrite H|exact H0]|].
      unfold abs, Conc.set_server. cbn [s_clients s_next s_main s_workers s_mutex s_mono s_servers]. f_equal. symmetry. apply map_seq_upd; [|intros i Ni; unfold aserver; opn; now rewrite setf_other|exact L].
      unfold aserver. opn. now rewrite setf_same, H0.
    - (* FsSrvEnd *) left. split; [apply abs_eq; opn; auto; intros j0 L; unfold aserver; opn; cases; [now rewrite H|reflexivity]|right; rks R; lia].
    - left; auto.
    - (* FsAbsorb *) right. assert (L : j < n) by (destruct (Nat.lt_ge_cases j n) as [|L]; [assumption|apply (r_srv s R) in L; congruence]).
      eapply step_to; [apply (StepAbsorb work absorb (abs s) j (aserver s j) p ps); unfold abs; cbn [s_servers]; [now apply nth_map_seq|unfold aserver; cbn; now rewrite H]|].
      unfold abs, Conc.set_server. cbn [s_clients s_next s_main s_workers s_mutex s_mono s_servers]. f_equal. symmetry. apply map_seq_upd; [|intros i Ni; unfold aserver; opn; now rewrite !setf_other|exact L].
      unfold aserver. opn. now rewrite !setf_same.
    - (* FsServed *) right. assert (L : j < n) by (destruct (Nat.lt_ge_cases j n) as [|L]; [assumption|apply (r_srv s R) in L; congruence]).
      eapply step_to; [apply (StepServed work absorb (abs s) j (aserver s j)); unfold abs; cbn [s_servers]; [now apply nth_map_seq|unfold aserver; cbn; now rewrite H]|].
      unfold abs, Conc.set_server. cbn [s_clients s_next s_main s_workers s_mutex s_mono s_servers]. f_equal. symmetry. apply map_seq_upd; [|intros i Ni; unfold aserver; opn; now rewrite setf_other|exact L].
      unfold aserver. opn. now rewrite setf_same.
  Qed.

  Theorem ri_start : forall docs last ws shards s0, length ws = nw -> RI (fstart n docs last ws shards s0).
  Proof.
    intros docs last ws shards s0 E. constructor; unfold fstart; cbn [f_main f_worker f_d f_send f_srv f_mono snd nil_slice]; auto; try discriminate; try (intros k; destruct (nth_error ws k); discriminate).
    - intros j L. replace (j <? n) with false by (symmetry; apply Nat.ltb_ge; exact L). reflexivity.
    - intros k L. replace (nth_error ws k) with (@None W) by (symmetry; apply nth_error_None; lia). reflexivity.
  Qed.
  Lemma abs_start : forall docs last ws shards s0, length ws = nw -> length shards = n -> abs (fstart n docs last ws shards s0) = init [docs] last ws shards.
  Proof.
    intros docs last ws shards s0 Lw Ls. unfold abs, init, fstart. opn. cbn [aclient amain map]. f_equal.
    - rewrite <- Lw. transitivity (map (fun k => match nth_error ws k with Some w => @Conc.WIdle W D P w | None => @Conc.WStop W D P end) (seq 0 (length ws))).
      + apply map_seq_ext. intros k _. unfold aw. opn. destruct (nth_error ws k); reflexivity.
      + apply nth_error_ext'. intros i. rewrite (nth_error_map _ i ws). destruct (Nat.lt_ge_cases i (length ws)) as [L|L].
        * rewrite nth_map_seq by exact L. destruct (nth_error ws i) eqn:E; [reflexivity|]. apply nth_error_None in E. lia.
        * replace (nth_error ws i) with (@None W) by (symmetry; now apply nth_error_None). apply nth_error_None. rewrite map_length, seq_length. lia.
    - apply nth_error_ext'. intros i. rewrite (nth_error_map _ i shards). destruct (Nat.lt_ge_cases i n) as [L|L].
      + rewrite nth_map_seq by exact L. unfold aserver. opn. replace (i <? n) with true by (symmetry; apply Nat.ltb_lt; exact L).
        rewrite (nth_error_nth' shards s0) by lia. reflexivity.
      + replace (nth_error shards i) with (@None S) by (symmetry; apply nth_error_None; lia). apply nth_error_None. rewrite map_length, seq_length. lia.
  Qed.

  (** Every fine execution is one of Model/Conc. *)
  Theorem refine : forall docs last ws shards s0 tr s, length ws = nw -> length shards = n ->
    fsteps (fstart n docs last ws shards s0) tr s ->
    SI s /\ RI s /\ steps work absorb (init [docs] last ws shards) (abs s).
  Proof.
    intros docs last ws shards s0 tr s Lw Ls H. remember (fstart n docs last ws shards s0) as st0 eqn:E0.
    induction H as [st|st1 tr st2 es st3 H IH St].
    - subst st. split; [now apply si_start|]. split; [now apply ri_start|]. rewrite abs_start by assumption. constructor.
    - destruct (IH E0) as (I & R & Q). split; [eapply si_step; eassumption|]. split; [eapply ri_step; eassumption|].
      destruct (refine_step _ _ _ I R St) as [[-> _]|C]; [exact Q|]. eapply steps_step; eassumption.
  Qed.
End FineRefine.
