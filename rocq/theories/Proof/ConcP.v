(** The transition system of Model/Conc with one caller of Add: invariant. *)
From Verif Require Import Model.Base Model.Conc Proof.Tactics.
Local Open Scope N_scope.

(** Number of elements satisfying a test. *)
Fixpoint countb {A} (f : A -> bool) (l : list A) : nat :=
  match l with [] => O | x :: r => ((if f x then 1 else 0) + countb f r)%nat end.
Lemma countb_upd {A} (f : A -> bool) l : forall k x y, nth_error l k = Some x ->
  (countb f (upd k y l) + (if f x then 1 else 0) = countb f l + (if f y then 1 else 0))%nat.
Proof.
  induction l as [|z l IH]; intros [|k] x y E; cbn [nth_error upd countb] in *; try discriminate.
  - inv E. destruct (f x), (f y); lia.
  - specialize (IH k x y E). lia.
Qed.
Lemma countb_le {A} (f : A -> bool) l : (countb f l <= length l)%nat.
Proof. induction l as [|x l IH]; cbn [countb length]; [lia|]. destruct (f x); lia. Qed.
Lemma countb_all {A} (f : A -> bool) l : countb f l = length l -> forall k x, nth_error l k = Some x -> f x = true.
Proof.
  induction l as [|y l IH]; intros E [|k] x Ex; cbn [countb length nth_error] in *; try discriminate.
  - inv Ex. pose proof (countb_le f l). destruct (f x); [reflexivity|lia].
  - pose proof (countb_le f l). eapply IH; [|exact Ex]. destruct (f y); lia.
Qed.
Lemma countb_lt {A} (f : A -> bool) l : (countb f l < length l)%nat -> exists k x, nth_error l k = Some x /\ f x = false.
Proof.
  induction l as [|y l IH]; cbn [countb length]; [lia|]. intros L. destruct (f y) eqn:E.
  - destruct IH as (k & x & Ex & Fx); [lia|]. exists (Datatypes.S k), x. auto.
  - exists O, y. auto.
Qed.
Lemma countb_zero {A} (f : A -> bool) l : countb f l = O -> forall k x, nth_error l k = Some x -> f x = false.
Proof.
  induction l as [|y l IH]; intros E [|k] x Ex; cbn [countb nth_error] in *; try discriminate.
  - inv Ex. destruct (f x); [lia|reflexivity].
  - eapply IH; [|exact Ex]. lia.
Qed.
Lemma countb_map {A B} (f : B -> bool) (g : A -> B) l : countb f (map g l) = countb (fun x => f (g x)) l.
Proof. induction l as [|x l IH]; cbn [map countb]; [reflexivity|]. rewrite IH. reflexivity. Qed.
Lemma countb_ext {A} (f g : A -> bool) l : (forall x, f x = g x) -> countb f l = countb g l.
Proof. intros E. induction l as [|x l IH]; cbn [countb]; [reflexivity|]. rewrite E, IH. reflexivity. Qed.

Lemma nth_upd_inv {A} (l : list A) k (y : A) k' x : nth_error (upd k y l) k' = Some x ->
  (k' = k /\ x = y /\ (k < length l)%nat) \/ (k' <> k /\ nth_error l k' = Some x).
Proof.
  rewrite nth_error_upd. destruct (Nat.eqb_spec k k') as [->|N].
  - destruct (nth_error l k') eqn:E; [|discriminate]. intros X. inv X. left. split; [reflexivity|]. split; [reflexivity|].
    apply nth_error_Some. congruence.
  - intros X. right. auto.
Qed.
Lemma nth_upd_same {A} (l : list A) k (x y : A) : nth_error l k = Some x -> nth_error (upd k y l) k = Some y.
Proof. intros E. apply nth_error_upd_eq. apply nth_error_Some. congruence. Qed.
Lemma nth_upd_other {A} (l : list A) k (y : A) k' : k' <> k -> nth_error (upd k y l) k' = nth_error l k'.
Proof. intros N. apply nth_error_upd_ne. auto. Qed.
Lemma nth_len {A} (l : list A) k (x : A) : nth_error l k = Some x -> (k < length l)%nat.
Proof. intros E. apply nth_error_Some. congruence. Qed.
Lemma nth_ex {A} (l : list A) k : (k < length l)%nat -> exists x, nth_error l k = Some x.
Proof. intros L. destruct (nth_error l k) eqn:E; eauto. apply nth_error_None in E. lia. Qed.

Lemma nth_map_inv {A B} (f : A -> B) l k y : nth_error (map f l) k = Some y -> exists x, nth_error l k = Some x /\ y = f x.
Proof. rewrite nth_error_map. destruct (nth_error l k) as [x|] eqn:E; intros H; inv H. eauto. Qed.

Section ConcP.
  Context {W D P S : Type}.
  Variable work : W -> N -> D -> result (W * list (list P)).
  Variable absorb : S -> P -> S.
  (** What a document is turned into, whatever worker does it ([winv]: the worker states
      that occur). *)
  Variable winv : W -> Prop.
  Variable out : N -> D -> list (list P).
  Variable nsh : nat.
  Definition work_ok : Prop := forall w did d, winv w -> exists w', work w did d = Ok (w', out did d) /\ winv w'.
  Definition out_len : Prop := forall did d, length (out did d) = nsh.

  Notation wstate := (@wstate W D P).
  Notation state := (@state W D P S).
  Notation gstate := (@gstate P).
  Notation server := (@server P S).

  Variable docs : list D.
  Variable last0 : N.
  Variable shards0 : list S.
  Variable ns : nat.
  Hypothesis HW : work_ok.
  Hypothesis HO : out_len.
  Hypothesis HS : length shards0 = nsh.
  Hypothesis HL : last0 + nlen docs < 4294967295.

  Definition id (i : nat) : N := last0 + N.of_nat i + 1.
  Fixpoint outs_from (i : nat) (ds : list D) : list (list (list P)) :=
    match ds with [] => [] | d :: r => out (id i) d :: outs_from (Datatypes.S i) r end.
  Definition outs := outs_from 0 docs.
  Lemma outs_from_nth ds : forall i k d, nth_error ds k = Some d -> nth_error (outs_from i ds) k = Some (out (id (i + k)) d).
  Proof.
    induction ds as [|x ds IH]; intros i [|k] d E; cbn [nth_error outs_from] in *; try discriminate.
    - inv E. rewrite Nat.add_0_r. reflexivity.
    - rewrite (IH _ _ _ E). do 3 f_equal. lia.
  Qed.
  Lemma outs_nth k d : nth_error docs k = Some d -> nth_error outs k = Some (out (id k) d).
  Proof. apply outs_from_nth. Qed.
  Lemma outs_from_length ds : forall i, length (outs_from i ds) = length ds.
  Proof. induction ds as [|d ds IH]; intros i; cbn [outs_from length]; [reflexivity|]. rewrite IH. reflexivity. Qed.
  Lemma outs_length : length outs = length docs.
  Proof. apply outs_from_length. Qed.

  (** The posts of shard [j] for the first [c] documents. *)
  Definition flat (j : nat) (os : list (list (list P))) : list P := concat (map (fun o => nth j o []) os).
  Definition after (j c : nat) (s0 : S) : S := fold_left absorb (flat j (firstn c outs)) s0.
  Lemma after_S j c s0 bs : nth_error outs c = Some bs -> after j (Datatypes.S c) s0 = fold_left absorb (nth j bs []) (after j c s0).
  Proof.
    intros E. unfold after, flat.
    assert (F : firstn (Datatypes.S c) outs = firstn c outs ++ [bs]).
    { clear -E. revert c E. induction outs as [|o l IH]; intros [|c] E; cbn [nth_error firstn app] in *; try discriminate.
      - inv E. reflexivity.
      - f_equal. apply IH, E. }
    rewrite F, map_app, concat_app, fold_left_app. cbn [map concat]. rewrite app_nil_r. reflexivity.
  Qed.

  (** Parts of the invariant. *)
  Definition hold (w : wstate) : option N :=
    match w with
    | WDo _ did _ | WLock _ did _ | WChk _ did _ | WWait _ did _ | WSend _ did _ => Some did
    | _ => None
    end.
  Definition crit (w : wstate) : bool := match w with WChk _ _ _ | WSend _ _ _ => true | _ => false end.
  Definition stopped (w : wstate) : bool := match w with WStop => true | _ => false end.
  Definition issend (w : wstate) : bool := match w with WSend _ _ _ => true | _ => false end.

  Definition wok (c s : nat) (w : wstate) : Prop :=
    match w with
    | WIdle w => winv w
    | WDo w did d => winv w /\ exists i, (c <= i < s)%nat /\ did = id i /\ nth_error docs i = Some d
    | WLock w did bs => winv w /\ exists i, (c <= i < s)%nat /\ did = id i /\ nth_error outs i = Some bs
    | WChk w did bs => winv w /\ exists i, (c <= i < s)%nat /\ did = id i /\ nth_error outs i = Some bs
    | WWait w did bs => winv w /\ exists i, (c < i < s)%nat /\ did = id i /\ nth_error outs i = Some bs
    | WSend w did gs => winv w /\ did = id c /\ (c < s)%nat /\ length gs = nsh
    | WStop => True
    end.
  Definition Cl (cs : list client) (next : N) (s : nat) : Prop :=
    exists cl, cs = [cl] /\
      ((cl_send cl = None /\ cl_docs cl = skipn s docs /\ next = id s) \/
       (exists d, cl_send cl = Some (id s, d) /\ nth_error docs s = Some d /\ cl_docs cl = skipn (Datatypes.S s) docs /\ next = id (Datatypes.S s))).
  Definition Ws (c s : nat) (ws : list wstate) : Prop :=
    length ws = ns /\ forall k w, nth_error ws k = Some w -> wok c s w.
  Definition Ho (c s : nat) (ws : list wstate) : Prop :=
    (forall k1 k2 w1 w2 x, nth_error ws k1 = Some w1 -> nth_error ws k2 = Some w2 ->
       hold w1 = Some x -> hold w2 = Some x -> k1 = k2) /\
    (forall i, (c <= i < s)%nat -> exists k w, nth_error ws k = Some w /\ hold w = Some (id i)).
  Definition Mx (ws : list wstate) (m : option nat) : Prop :=
    (forall k w, nth_error ws k = Some w -> crit w = true -> m = Some k) /\
    (forall k, m = Some k -> exists w, nth_error ws k = Some w /\ crit w = true).
  Definition Mn (m : mstate) (cs : list (@client D)) (ws : list wstate) : Prop :=
    match m with
    | MRun => countb stopped ws = O
    | MClose k => Forall client_done cs /\ (countb stopped ws + k = ns)%nat
    | MChan j => Forall client_done cs /\ countb stopped ws = ns /\ (j <= nsh)%nat
    end.
  Definition Cd (m : mstate) (vs : list server) : Prop :=
    forall j v, nth_error vs j = Some v ->
      v_closed v = match m with MChan j' => (j <? j')%nat | _ => false end.
  (** One server, given the sender goroutine of the worker that is sending, if any; [cur]:
      the shard before the present document, [o]: the document's posts for this shard. *)
  Definition srv (g : option gstate) (cur : S) (o : list P) (v : server) : Prop :=
    match g with
    | None => (v_st v = VRecv \/ (v_st v = VStop /\ v_closed v = true)) /\ v_shard v = cur
    | Some (GSend ps) => v_st v = VRecv /\ ps = o /\ v_shard v = cur
    | Some GAck =>
        (exists dn rest, o = dn ++ rest /\ v_st v = VBusy rest /\ v_shard v = fold_left absorb dn cur) \/
        (v_st v = VAck /\ v_shard v = fold_left absorb o cur)
    | Some GDone => v_st v = VRecv /\ v_shard v = fold_left absorb o cur
    end.
  Definition Sv (c : nat) (ws : list wstate) (vs : list server) : Prop :=
    length vs = nsh /\
    ((forall k w, nth_error ws k = Some w -> issend w = false) ->
       forall j v s0, nth_error vs j = Some v -> nth_error shards0 j = Some s0 -> srv None (after j c s0) [] v) /\
    (forall k w did gs, nth_error ws k = Some (WSend w did gs) ->
       forall j v s0 g o, nth_error vs j = Some v -> nth_error shards0 j = Some s0 -> nth_error gs j = Some g ->
         nth_error outs c = Some o -> srv (Some g) (after j c s0) (nth j o []) v).

  Record Inv (st : state) (c s : nat) : Prop := {
    i_cs : (c <= s <= length docs)%nat;
    i_cl : Cl (s_clients st) (s_next st) s;
    i_mono : s_mono st = last0 + N.of_nat c;
    i_ws : Ws c s (s_workers st);
    i_ho : Ho c s (s_workers st);
    i_mx : Mx (s_workers st) (s_mutex st);
    i_mn : Mn (s_main st) (s_clients st) (s_workers st);
    i_cd : Cd (s_main st) (s_servers st);
    i_sv : Sv c (s_workers st) (s_servers st) }.

  Lemma id_inj i j : id i = id j -> i = j.
  Proof. unfold id. lia. Qed.
  Lemma outs_some i : (i < length docs)%nat -> exists o, nth_error outs i = Some o /\ length o = nsh.
  Proof.
    intros L. destruct (nth_ex docs i L) as [d E]. exists (out (id i) d). split; [apply outs_nth, E|apply HO].
  Qed.
  Lemma outs_len_of i o : nth_error outs i = Some o -> length o = nsh.
  Proof.
    intros E. destruct (outs_some i) as (o' & E' & L); [|congruence].
    rewrite <- outs_length. eapply nth_len, E.
  Qed.

  (** Replacing one worker. *)
  Lemma Ws_upd c s ws k w : Ws c s ws -> wok c s w -> Ws c s (upd k w ws).
  Proof.
    intros [L H] Hw. split; [rewrite upd_length; exact L|]. intros k' w' E. apply nth_upd_inv in E.
    destruct E as [(_ & -> & _)|(_ & E)]; [exact Hw|eauto].
  Qed.
  Lemma Ho_upd c s ws k w w' : nth_error ws k = Some w -> hold w' = hold w -> Ho c s ws -> Ho c s (upd k w' ws).
  Proof.
    intros E Eh [U X]. split.
    - intros k1 k2 w1 w2 x E1 E2 H1 H2. apply nth_upd_inv in E1, E2.
      assert (G1 : exists y1, nth_error ws k1 = Some y1 /\ hold y1 = Some x).
      { destruct E1 as [(-> & -> & _)|(_ & E1)]; [exists w; split; [exact E|congruence]|eauto]. }
      assert (G2 : exists y2, nth_error ws k2 = Some y2 /\ hold y2 = Some x).
      { destruct E2 as [(-> & -> & _)|(_ & E2)]; [exists w; split; [exact E|congruence]|eauto]. }
      destruct G1 as (y1 & A1 & B1), G2 as (y2 & A2 & B2). eauto.
    - intros i Hi. destruct (X i Hi) as (k0 & w0 & E0 & H0). destruct (Nat.eq_dec k0 k) as [->|Nk].
      + exists k, w'. split; [eapply nth_upd_same, E|]. congruence.
      + exists k0, w0. rewrite nth_upd_other by exact Nk. auto.
  Qed.
  Lemma Mx_upd ws m k w w' : nth_error ws k = Some w -> crit w' = crit w -> Mx ws m -> Mx (upd k w' ws) m.
  Proof.
    intros E Ec [A B]. split.
    - intros k' x Ex Cx. apply nth_upd_inv in Ex. destruct Ex as [(-> & -> & _)|(_ & Ex)]; [|eauto].
      eapply A; [exact E|congruence].
    - intros k' Em. destruct (B k' Em) as (x & Ex & Cx). destruct (Nat.eq_dec k' k) as [->|Nk].
      + exists w'. split; [eapply nth_upd_same, E|congruence].
      + exists x. rewrite nth_upd_other by exact Nk. auto.
  Qed.
  Lemma stopped_upd ws k w w' : nth_error ws k = Some w -> stopped w' = stopped w ->
    countb stopped (upd k w' ws) = countb stopped ws.
  Proof. intros E Es. pose proof (countb_upd stopped ws k w w' E) as C. rewrite Es in C. lia. Qed.
  Lemma Mn_upd m cs ws k w w' : nth_error ws k = Some w -> stopped w' = stopped w -> Mn m cs ws -> Mn m cs (upd k w' ws).
  Proof. intros E Es. unfold Mn. rewrite (stopped_upd ws k w w' E Es). auto. Qed.
  Lemma Sv_upd c ws vs k w w' : nth_error ws k = Some w -> issend w = false -> issend w' = false ->
    Sv c ws vs -> Sv c (upd k w' ws) vs.
  Proof.
    intros E N N' (L & A & B). split; [exact L|]. split.
    - intros H. apply A. intros k0 w0 E0. destruct (Nat.eq_dec k0 k) as [->|Nk]; [congruence|].
      apply (H k0). rewrite nth_upd_other by exact Nk. exact E0.
    - intros k0 w0 did gs E0. apply nth_upd_inv in E0. destruct E0 as [(_ & X & _)|(_ & E0)]; [subst w'; discriminate|].
      eapply B, E0.
  Qed.

  Lemma Cl_done cs next s : (s <= length docs)%nat -> Cl cs next s -> Forall client_done cs -> s = length docs.
  Proof.
    intros G (cl & -> & [(A & B & _)|(d & A & _)]) F; inv F.
    - destruct H1 as [_ H1]. rewrite B in H1. pose proof (skipn_length s docs) as L. rewrite H1 in L. cbn [length] in L. lia.
    - destruct H1 as [H1 _]. congruence.
  Qed.
  Lemma u32_id i : (i <= length docs)%nat -> u32 (id i) = id i.
  Proof. intros L. unfold u32. apply N.mod_small. unfold id, nlen in *. lia. Qed.
  Lemma skipn_cons_nth {A} (l : list A) s x r : skipn s l = x :: r -> nth_error l s = Some x /\ skipn (Datatypes.S s) l = r.
  Proof.
    revert l. induction s as [|s IH]; intros [|y l] E; cbn [skipn nth_error] in *; try discriminate.
    - inv E. auto.
    - apply IH in E. exact E.
  Qed.

  (** A worker that holds [id i] with [i] other than [c] stays in range when [c] grows. *)
  Lemma wok_next c s w : wok c s w -> hold w <> Some (id c) -> wok (Datatypes.S c) s (wake w).
  Proof.
    destruct w as [w|w did d|w did bs|w did bs|w did bs|w did gs|]; cbn [wok wake hold]; auto.
    - intros (I & i & R & -> & E) N. split; [exact I|]. exists i. split; [|auto].
      assert (i <> c) by congruence. lia.
    - intros (I & i & R & -> & E) N. split; [exact I|]. exists i. split; [|auto].
      assert (i <> c) by congruence. lia.
    - intros (I & i & R & -> & E) N. split; [exact I|]. exists i. split; [|auto].
      assert (i <> c) by congruence. lia.
    - intros (I & -> & _) N. congruence.
  Qed.
  Lemma hold_wake w : hold (wake w) = hold w.
  Proof. destruct w; reflexivity. Qed.
  Lemma crit_wake w : crit (wake w) = crit w.
  Proof. destruct w; reflexivity. Qed.
  Lemma stopped_wake w : stopped (wake w) = stopped w.
  Proof. destruct w; reflexivity. Qed.
  Lemma issend_wake w : issend (wake w) = issend w.
  Proof. destruct w; reflexivity. Qed.
  Lemma issend_crit w : issend w = true -> crit w = true.
  Proof. destruct w; cbn; congruence. Qed.

  Lemma Cd_same m m' vs : (match m with MChan j => j | _ => O end = match m' with MChan j => j | _ => O end) ->
    Cd m vs -> Cd m' vs.
  Proof.
    intros E C j v Ev. rewrite (C j v Ev). destruct m, m'; subst; try reflexivity; try (destruct j; reflexivity).
    all: try (cbn in E; subst; destruct j; reflexivity).
  Qed.

  (** A server replaced, keeping its [closed] flag. *)
  Lemma Cd_upd m vs j v v' : nth_error vs j = Some v -> v_closed v' = v_closed v -> Cd m vs -> Cd m (upd j v' vs).
  Proof.
    intros E Ec C k x Ex. apply nth_upd_inv in Ex. destruct Ex as [(-> & -> & _)|(_ & Ex)]; [|exact (C k x Ex)].
    rewrite Ec. apply C, E.
  Qed.

  (** Only one worker sends. *)
  Lemma one_sender ws m k1 k2 w1 w2 : Mx ws m -> nth_error ws k1 = Some w1 -> nth_error ws k2 = Some w2 ->
    issend w1 = true -> issend w2 = true -> k1 = k2.
  Proof.
    intros [A _] E1 E2 S1 S2. apply issend_crit in S1, S2. pose proof (A _ _ E1 S1). pose proof (A _ _ E2 S2). congruence.
  Qed.
  (** While a worker sends no channel is closed. *)
  Lemma sending_open st c s k w did gs j v : Inv st c s -> nth_error (s_workers st) k = Some (WSend w did gs) ->
    nth_error (s_servers st) j = Some v -> v_closed v = false.
  Proof.
    intros I E Ev. rewrite (i_cd _ _ _ I j v Ev). pose proof (i_mn _ _ _ I) as M. unfold Mn in M.
    destruct (s_main st); auto. destruct M as (_ & Cn & _).
    assert (X := countb_all stopped (s_workers st)). destruct (i_ws _ _ _ I) as [L _]. rewrite <- L in Cn.
    specialize (X Cn _ _ E). discriminate.
  Qed.

  (** Replacing the sending worker's goroutine [j] and server [j] together. *)
  Lemma Sv_pair c ws vs m k w did gs j g g' v v' : Mx ws m ->
    nth_error ws k = Some (WSend w did gs) -> nth_error gs j = Some g -> nth_error vs j = Some v ->
    (forall s0 o, nth_error shards0 j = Some s0 -> nth_error outs c = Some o ->
        srv (Some g) (after j c s0) (nth j o []) v -> srv (Some g') (after j c s0) (nth j o []) v') ->
    Sv c ws vs -> Sv c (upd k (WSend w did (upd j g' gs)) ws) (upd j v' vs).
  Proof.
    intros M E Eg Ev T (L & A & B). split; [rewrite upd_length; exact L|]. split.
    - intros H. specialize (H k (WSend w did (upd j g' gs))). rewrite (nth_upd_same _ _ _ _ E) in H.
      specialize (H eq_refl). discriminate.
    - intros k0 w0 did0 gs0 E0. apply nth_upd_inv in E0. destruct E0 as [(-> & X & _)|(Nk & E0)].
      + inv X. intros i x s0 g0 o Ex Es Eg0 Eo. apply nth_upd_inv in Ex.
        destruct Ex as [(-> & -> & _)|(Nj & Ex)].
        * rewrite (nth_upd_same _ _ _ _ Eg) in Eg0. inv Eg0. apply T; auto. eapply B; eauto.
        * rewrite nth_upd_other in Eg0 by exact Nj. eapply B; eauto.
      + exfalso. apply Nk. eapply one_sender; [exact M|exact E0|exact E|reflexivity|reflexivity].
  Qed.
  (** Replacing server [j] alone while worker [k] sends. *)
  Lemma Sv_server c ws vs m k w did gs j g v v' : Mx ws m ->
    nth_error ws k = Some (WSend w did gs) -> nth_error gs j = Some g -> nth_error vs j = Some v ->
    (forall s0 o, nth_error shards0 j = Some s0 -> nth_error outs c = Some o ->
        srv (Some g) (after j c s0) (nth j o []) v -> srv (Some g) (after j c s0) (nth j o []) v') ->
    Sv c ws vs -> Sv c ws (upd j v' vs).
  Proof.
    intros M E Eg Ev T Sx. pose proof (Sv_pair c ws vs m k w did gs j g g v v' M E Eg Ev T Sx) as R.
    rewrite (upd_same j g gs Eg), (upd_same k _ ws E) in R. exact R.
  Qed.

  Lemma sender_exists ws : (forall k w, nth_error ws k = Some w -> issend w = false) \/
    exists k w did gs, nth_error ws k = Some (WSend w did gs).
  Proof.
    induction ws as [|x ws IH].
    - left. intros [|k] w E; discriminate.
    - destruct (issend x) eqn:Ex.
      + right. destruct x; try discriminate. exists O. cbn [nth_error]. eauto.
      + destruct IH as [IH|(k & w & did & gs & E)].
        * left. intros [|k] w E; cbn [nth_error] in E; [congruence|eauto].
        * right. exists (Datatypes.S k), w, did, gs. exact E.
  Qed.
  (** A busy server belongs to the sending worker. *)
  Lemma busy_sender st c s j v : Inv st c s -> nth_error (s_servers st) j = Some v ->
    v_st v <> VRecv -> v_st v <> VStop ->
    exists k w did gs g, nth_error (s_workers st) k = Some (WSend w did gs) /\ nth_error gs j = Some g /\ (c < s)%nat.
  Proof.
    intros I Ev N1 N2. destruct (i_sv _ _ _ I) as (L & A & B).
    destruct (nth_ex shards0 j) as [s0 Es]; [rewrite HS, <- L; eapply nth_len, Ev|].
    destruct (sender_exists (s_workers st)) as [H|(k & w & did & gs & E)].
    - destruct (A H j v s0 Ev Es) as ([X|(X & _)] & _); congruence.
    - destruct (i_ws _ _ _ I) as [_ Hw]. destruct (Hw _ _ E) as (_ & _ & R & Lg).
      destruct (nth_ex gs j) as [g Eg]; [rewrite Lg, <- L; eapply nth_len, Ev|]. eauto 10.
  Qed.

  Lemma Inv_init ws : length ws = ns -> Forall winv ws -> Inv (init [docs] last0 ws shards0) 0 0.
  Proof.
    intros Ln Fw. assert (NW : forall k w, nth_error (map (@WIdle W D P) ws) k = Some w -> exists x, w = WIdle x /\ winv x).
    { intros k w E. rewrite nth_error_map in E. destruct (nth_error ws k) as [x|] eqn:Ex; [|discriminate]. inv E.
      exists x. split; [reflexivity|]. rewrite Forall_forall in Fw. apply Fw. eapply nth_error_In, Ex. }
    unfold init. split; cbn [s_clients s_next s_main s_workers s_mutex s_mono s_servers map].
    - lia.
    - exists (MkClient None docs). split; [reflexivity|]. left. cbn [cl_send cl_docs skipn].
      split; [reflexivity|]. split; [reflexivity|]. unfold id, u32, nlen in *. rewrite N.mod_small by lia. lia.
    - lia.
    - split; [rewrite map_length; exact Ln|]. intros k w E. destruct (NW _ _ E) as (x & -> & Wx). exact Wx.
    - split.
      + intros k1 k2 w1 w2 x E1 _ H1 _. destruct (NW _ _ E1) as (y & -> & _). discriminate.
      + intros i Hi. lia.
    - split; [|discriminate]. intros k w E C. destruct (NW _ _ E) as (y & -> & _). discriminate.
    - unfold Mn. clear. induction ws as [|x ws IH]; cbn [map countb]; [reflexivity|]. rewrite IH. reflexivity.
    - intros j v E. rewrite nth_error_map in E. destruct (nth_error shards0 j); inv E. reflexivity.
    - split; [rewrite map_length; exact HS|]. split.
      + intros _ j v s0 E Es. rewrite nth_error_map, Es in E. inv E. split; [left; reflexivity|reflexivity].
      + intros k w did gs E. destruct (NW _ _ E) as (y & X & _). discriminate.
  Qed.

  Ltac kinv := intros; cbn [set_client set_next set_main set_worker set_workers set_mutex set_mono set_server
    s_clients s_next s_main s_workers s_mutex s_mono s_servers v_st v_shard v_closed cl_send cl_docs] in *.
  Ltac simpl_inv := constructor; unfold set_client, set_next, set_main, set_worker, set_workers, set_mutex, set_mono, set_server;
    cbn [s_clients s_next s_main s_workers s_mutex s_mono s_servers].


  Lemma sub32_id i : (i < length docs)%nat -> sub32 (id i) 1 = last0 + N.of_nat i.
  Proof. intros L. unfold sub32, u32, id, nlen in *. clear -L HL. lia. Qed.

  Lemma Inv_step st st' c s : Inv st c s -> step work absorb st st' -> exists c' s', Inv st' c' s' /\ (c <= c')%nat.
  Proof.
    intros I H. pose proof I as [Ics Icl Imono Iws Iho Imx Imn Icd Isv]. destruct H.
    - (* StepId *)
      exists c, s. split; [|lia]. pose proof Icl as Icl0. destruct Icl as (cl & Ec & Icl). rewrite Ec in H.
      destruct i as [|i]; [|destruct i; discriminate]. inv H.
      destruct Icl as [(A & B & Cx)|(d' & A & _)]; [|congruence].
      rewrite B in H1. apply skipn_cons_nth in H1. destruct H1 as [E1 E2].
      simpl_inv; auto.
      + rewrite Ec. cbn [upd]. eexists. split; [reflexivity|]. right. exists d. cbn [cl_send cl_docs].
        rewrite Cx. split; [reflexivity|]. split; [exact E1|]. split; [auto|].
        pose proof (nth_len _ _ _ E1) as L. unfold id, u32, nlen in *. rewrite N.mod_small by lia. lia.
      + assert (ND : ~ Forall client_done (s_clients st)).
        { intros F. apply (Cl_done _ (s_next st) s) in F; [|lia|exact Icl0].
          pose proof (nth_len _ _ _ E1). lia. }
        unfold Mn in *. destruct (s_main st); auto; destruct Imn as [F _]; contradiction.
    - (* StepGive *)
      exists c, (Datatypes.S s). split; [|lia]. pose proof Icl as Icl0. destruct Icl as (cl & Ec & Icl). rewrite Ec in H.
      destruct i as [|i]; [|destruct i; discriminate]. inv H.
      destruct Icl as [(A & _)|(d' & A & B & Cx & Dx)]; [congruence|]. rewrite A in H0. inv H0.
      pose proof (nth_len _ _ _ B) as Ls.
      simpl_inv; auto.
      + lia.
      + rewrite Ec. cbn [upd]. eexists. split; [reflexivity|]. left. auto.
      + destruct Iws as [L Hw]. split; [rewrite upd_length; exact L|]. intros k' x Ex. apply nth_upd_inv in Ex.
        destruct Ex as [(-> & -> & _)|(Nk & Ex)].
        * split; [exact (Hw _ _ H1)|]. exists s. split; [lia|]. auto.
        * specialize (Hw _ _ Ex). destruct x; cbn [wok] in *; auto.
          all: try (destruct Hw as (Q & i & R & Z); split; [exact Q|]; exists i; split; [lia|exact Z]).
          destruct Hw as (Q1 & Q2 & Q3 & Q4). split; [exact Q1|]. split; [exact Q2|]. split; [lia|exact Q4].
      + destruct Iho as [U X]. destruct Iws as [L Hw].
        assert (NS : forall k' x, nth_error (s_workers st) k' = Some x -> hold x <> Some (id s)).
        { intros k' x Ex Hx. specialize (Hw _ _ Ex). destruct x; cbn [wok hold] in *; try discriminate; inv Hx.
          all: try (destruct Hw as (_ & i & R & Z & _); apply id_inj in Z; lia).
          destruct Hw as (_ & Z & R & _). apply id_inj in Z. lia. }
        split.
        * intros k1 k2 w1 w2 x E1 E2 H2 H3. apply nth_upd_inv in E1, E2.
          destruct E1 as [(-> & -> & _)|(N1 & E1)], E2 as [(-> & -> & _)|(N2 & E2)]; auto.
          -- cbn [hold] in H2. inv H2. exfalso. eapply NS; eauto.
          -- cbn [hold] in H3. inv H3. exfalso. eapply NS; eauto.
          -- eauto.
        * intros i Hi. destruct (Nat.eq_dec i s) as [->|Ni].
          -- exists k, (WDo w (id s) d). split; [eapply nth_upd_same, H1|reflexivity].
          -- destruct (X i) as (k0 & w0 & E0 & H0); [lia|]. exists k0, w0. split; [|exact H0].
             rewrite nth_upd_other; [exact E0|]. intros ->. rewrite H1 in E0. inv E0. discriminate.
      + eapply Mx_upd; [exact H1|reflexivity|exact Imx].
      + eapply Mn_upd; [exact H1|reflexivity|].
        assert (ND : ~ Forall client_done (s_clients st)).
        { intros F. apply (Cl_done _ (s_next st) s) in F; [|lia|exact Icl0]. lia. }
        unfold Mn in *. destruct (s_main st); auto; destruct Imn as [F _]; contradiction.
      + eapply Sv_upd; [exact H1|reflexivity|reflexivity|exact Isv].
    - (* StepClose *)
      exists c, s. split; [|lia]. simpl_inv; auto.
      + unfold Mn in *. rewrite H in Imn. split; [exact H0|]. destruct Iws as [L _]. lia.
      + eapply Cd_same; [|exact Icd]. rewrite H. reflexivity.
    - (* StepShutdown *)
      exists c, s. split; [|lia]. simpl_inv; auto.
      + apply Ws_upd; [exact Iws|exact Logic.I].
      + eapply Ho_upd; [exact H0|reflexivity|exact Iho].
      + eapply Mx_upd; [exact H0|reflexivity|exact Imx].
      + unfold Mn in *. rewrite H in Imn. destruct Imn as [F E]. split; [exact F|].
        pose proof (countb_upd stopped (s_workers st) k _ WStop H0) as X. cbn [stopped] in X. lia.
      + eapply Cd_same; [|exact Icd]. rewrite H. reflexivity.
      + eapply Sv_upd; [exact H0|reflexivity|reflexivity|exact Isv].
    - (* StepShutDone *)
      exists c, s. split; [|lia]. simpl_inv; auto.
      + unfold Mn in *. rewrite H in Imn. destruct Imn as [F E]. split; [exact F|]. lia.
      + eapply Cd_same; [|exact Icd]. rewrite H. reflexivity.
    - (* StepCloseChan *)
      exists c, s. split; [|lia]. pose proof (nth_len _ _ _ H0) as Lj. destruct Isv as (Lv & A & B).
      assert (NS : forall k w, nth_error (s_workers st) k = Some w -> issend w = false).
      { intros k w E. unfold Mn in Imn. rewrite H in Imn. destruct Imn as (_ & Cn & _). destruct Iws as [L _].
        rewrite <- L in Cn. pose proof (countb_all stopped _ Cn _ _ E) as X. destruct w; try discriminate; reflexivity. }
      simpl_inv; auto.
      + unfold Mn in *. rewrite H in Imn. destruct Imn as (F & E & L). split; [exact F|]. split; [exact E|]. lia.
      + intros j' v' E. apply nth_upd_inv in E. destruct E as [(-> & -> & _)|(Nj & E)].
        * cbn [v_closed]. symmetry. apply Nat.ltb_lt. lia.
        * rewrite (Icd j' v' E), H. destruct (Nat.ltb_spec j' j), (Nat.ltb_spec j' (Datatypes.S j)); auto; lia.
      + split; [rewrite upd_length; exact Lv|]. split.
        * intros _ j' v' s0 E Es. apply nth_upd_inv in E. destruct E as [(-> & -> & _)|(Nj & E)]; [|eauto].
          destruct (A NS j v s0 H0 Es) as (X & Y). cbn [srv v_st v_shard v_closed]. split; [|exact Y].
          destruct X as [X|[X _]]; auto.
        * intros k w did gs E. apply NS in E. discriminate.
    - (* StepDo *)
      exists c, s. split; [|lia]. destruct Iws as [Lw Hw]. pose proof (Hw _ _ H) as (Wi & i & R & Ei & Ed).
      destruct (HW w did d Wi) as (w2 & E2 & Wi2). rewrite H0 in E2. inv E2.
      simpl_inv; auto.
      + apply Ws_upd; [split; auto|]. split; [exact Wi2|]. exists i. split; [exact R|]. split; [reflexivity|].
        apply outs_nth, Ed.
      + eapply Ho_upd; [exact H|reflexivity|exact Iho].
      + eapply Mx_upd; [exact H|reflexivity|exact Imx].
      + eapply Mn_upd; [exact H|reflexivity|exact Imn].
      + eapply Sv_upd; [exact H|reflexivity|reflexivity|exact Isv].
    - (* StepLock *)
      exists c, s. split; [|lia]. destruct Iws as [Lw Hw]. pose proof (Hw _ _ H) as Hk.
      simpl_inv; auto.
      + apply Ws_upd; [split; auto|exact Hk].
      + eapply Ho_upd; [exact H|reflexivity|exact Iho].
      + destruct Imx as [A B]. split.
        * intros k' x Ex Cx. apply nth_upd_inv in Ex. destruct Ex as [(-> & _)|(Nk & Ex)]; [reflexivity|].
          specialize (A _ _ Ex Cx). congruence.
        * intros k' E. inv E. eexists. split; [eapply nth_upd_same, H|reflexivity].
      + eapply Mn_upd; [exact H|reflexivity|exact Imn].
      + eapply Sv_upd; [exact H|reflexivity|reflexivity|exact Isv].
    - (* StepWait *)
      exists c, s. split; [|lia]. destruct Iws as [Lw Hw]. pose proof (Hw _ _ H) as (Wi & i & R & Ei & Ed).
      simpl_inv; auto.
      + apply Ws_upd; [split; auto|]. split; [exact Wi|]. exists i. split; [|auto].
        assert (i <> c); [|lia]. intros ->. apply H0. rewrite Ei, sub32_id by lia. exact Imono.
      + eapply Ho_upd; [exact H|reflexivity|exact Iho].
      + destruct Imx as [A B]. split; [|discriminate].
        intros k' x Ex Cx. apply nth_upd_inv in Ex. destruct Ex as [(-> & -> & _)|(Nk & Ex)]; [discriminate|].
        pose proof (A _ _ Ex Cx). pose proof (A _ _ H eq_refl). congruence.
      + eapply Mn_upd; [exact H|reflexivity|exact Imn].
      + eapply Sv_upd; [exact H|reflexivity|reflexivity|exact Isv].
    - (* StepSpawn *)
      exists c, s. split; [|lia]. destruct Iws as [Lw Hw]. pose proof (Hw _ _ H) as (Wi & i & R & Ei & Eo).
      assert (i = c) as ->.
      { rewrite Ei, sub32_id in H0 by lia. lia. }
      assert (NS : forall k w, nth_error (s_workers st) k = Some w -> issend w = false).
      { intros k' x Ex. destruct (issend x) eqn:Sx; [|reflexivity]. destruct Imx as [A _].
        pose proof (A _ _ Ex (issend_crit _ Sx)). pose proof (A _ _ H eq_refl). assert (k' = k) by congruence. subst k'.
        rewrite H in Ex. inv Ex. discriminate. }
      simpl_inv; auto.
      + apply Ws_upd; [split; auto|]. split; [exact Wi|]. split; [exact Ei|]. split; [lia|].
        rewrite map_length. eapply outs_len_of, Eo.
      + eapply Ho_upd; [exact H|reflexivity|exact Iho].
      + eapply Mx_upd; [exact H|reflexivity|exact Imx].
      + eapply Mn_upd; [exact H|reflexivity|exact Imn].
      + destruct Isv as (Lv & A & B). split; [exact Lv|]. split.
        * intros X. specialize (X k (WSend w did (map GSend bs))). rewrite (nth_upd_same _ _ _ _ H) in X.
          specialize (X eq_refl). discriminate.
        * intros k0 w0 did0 gs0 E0. apply nth_upd_inv in E0. destruct E0 as [(-> & X & _)|(Nk & E0)].
          -- inv X. intros j v s0 g o Ev Es Eg Eo2. rewrite Eo in Eo2. inv Eo2.
             apply nth_map_inv in Eg. destruct Eg as (ps & Ep & ->).
             destruct (A NS j v s0 Ev Es) as (Y & Z). cbn [srv].
             assert (E2 : nth j o [] = ps) by (apply nth_error_nth, Ep).
             split; [|auto]. destruct Y as [Y|[Y Cx]]; [exact Y|].
             pose proof (Icd j v Ev) as Q. rewrite Cx in Q. unfold Mn in Imn. destruct (s_main st); try discriminate.
             destruct Imn as (_ & Cn & _). rewrite <- Lw in Cn. pose proof (countb_all stopped _ Cn _ _ H) as F. discriminate.
          -- apply NS in E0. discriminate.
    - (* StepPost *)
      exists c, s. split; [|lia]. destruct H as [Hk Hg]. destruct Iws as [Lw Hw]. pose proof (Hw _ _ Hk) as (Wi & Ei & R & Lg).
      simpl_inv; auto.
      + apply Ws_upd; [split; auto|]. split; [exact Wi|]. split; [exact Ei|]. split; [exact R|]. rewrite upd_length. exact Lg.
      + eapply Ho_upd; [exact Hk|reflexivity|exact Iho].
      + eapply Mx_upd; [exact Hk|reflexivity|exact Imx].
      + eapply Mn_upd; [exact Hk|reflexivity|exact Imn].
      + eapply Cd_upd; [exact H0| |exact Icd]. cbn [v_closed]. congruence.
      + eapply Sv_pair; [exact Imx|exact Hk|exact Hg|exact H0| |exact Isv].
        intros s0 o Es Eo (X & Y & Z). cbn [srv v_st v_shard]. left. exists [], (nth j o []). cbn [app fold_left]. subst ps. auto.
    - (* StepSteal *)
      exfalso. destruct H as [Hk _], H0 as [Hk' _]. apply H1. eapply one_sender; [exact Imx|exact Hk|exact Hk'|reflexivity|reflexivity].
    - (* StepAck *)
      exists c, s. split; [|lia]. destruct H as [Hk Hg]. destruct Iws as [Lw Hw]. pose proof (Hw _ _ Hk) as (Wi & Ei & R & Lg).
      simpl_inv; auto.
      + apply Ws_upd; [split; auto|]. split; [exact Wi|]. split; [exact Ei|]. split; [exact R|]. rewrite upd_length. exact Lg.
      + eapply Ho_upd; [exact Hk|reflexivity|exact Iho].
      + eapply Mx_upd; [exact Hk|reflexivity|exact Imx].
      + eapply Mn_upd; [exact Hk|reflexivity|exact Imn].
      + eapply Cd_upd; [exact H0| |exact Icd]. cbn [v_closed]. congruence.
      + eapply Sv_pair; [exact Imx|exact Hk|exact Hg|exact H0| |exact Isv].
        intros s0 o Es Eo X. cbn [srv v_st v_shard] in *.
        destruct X as [(dn & rest & _ & X & _)|(_ & X)]; [congruence|auto].
    - (* StepStop *)
      exists c, s. split; [|lia].
      assert (NS : forall k w, nth_error (s_workers st) k = Some w -> issend w = false).
      { intros k w E. destruct (issend w) eqn:Sx; [|reflexivity]. destruct w; try discriminate.
        pose proof (sending_open _ _ _ _ _ _ _ _ _ I E H). congruence. }
      simpl_inv; auto.
      + eapply Cd_upd; [exact H| |exact Icd]. cbn [v_closed]. congruence.
      + destruct Isv as (Lv & A & B). split; [rewrite upd_length; exact Lv|]. split.
        * intros _ j' v' s0 E Es. apply nth_upd_inv in E. destruct E as [(-> & -> & _)|(Nj & E)]; [|eauto].
          destruct (A NS j v s0 H Es) as (X & Y). cbn [srv v_st v_shard v_closed]. auto.
        * intros k w did gs E. apply NS in E. discriminate.
    - (* StepAckClosed *)
      exfalso. destruct H as [Hk _]. pose proof (sending_open _ _ _ _ _ _ _ _ _ I Hk H0). congruence.
    - (* StepAbsorb *)
      exists c, s. split; [|lia]. destruct (busy_sender st c s j v I H) as (k & w & did & gs & g & Hk & Hg & R); [congruence|congruence|].
      simpl_inv; auto.
      + eapply Cd_upd; [exact H|reflexivity|exact Icd].
      + eapply Sv_server; [exact Imx|exact Hk|exact Hg|exact H| |exact Isv].
        intros s0 o Es Eo X. destruct g; cbn [srv v_st v_shard] in *.
        * destruct X as (X & _). congruence.
        * destruct X as [(dn & rest & E1 & E2 & E3)|(X & _)]; [|congruence]. left.
          assert (rest = p :: ps) as -> by congruence. exists (dn ++ [p]), ps. rewrite <- app_assoc. split; [exact E1|].
          split; [reflexivity|]. rewrite fold_left_app. cbn [fold_left]. congruence.
        * destruct X as (X & _). congruence.
    - (* StepServed *)
      exists c, s. split; [|lia]. destruct (busy_sender st c s j v I H) as (k & w & did & gs & g & Hk & Hg & R); [congruence|congruence|].
      simpl_inv; auto.
      + eapply Cd_upd; [exact H|reflexivity|exact Icd].
      + eapply Sv_server; [exact Imx|exact Hk|exact Hg|exact H| |exact Isv].
        intros s0 o Es Eo X. destruct g; cbn [srv v_st v_shard] in *.
        * destruct X as (X & _). congruence.
        * destruct X as [(dn & rest & E1 & E2 & E3)|(X & _)]; [|congruence]. right.
          assert (rest = []) as -> by congruence. rewrite app_nil_r in E1. subst dn. auto.
        * destruct X as (X & _). congruence.
    - (* StepSent *)
      exists (Datatypes.S c), s. split; [|lia]. destruct Iws as [Lw Hw]. pose proof (Hw _ _ H) as (Wi & Ei & R & Lg).
      set (ws' := upd k (WIdle w) (map wake (s_workers st))).
      assert (NW : forall k' x, nth_error ws' k' = Some x ->
                (k' = k /\ x = WIdle w) \/ (k' <> k /\ exists y, nth_error (s_workers st) k' = Some y /\ x = wake y)).
      { intros k' x Ex. apply nth_upd_inv in Ex. destruct Ex as [(A & B & _)|(A & B)]; [left; auto|right].
        apply nth_map_inv in B. auto. }
      assert (NH : forall k' y, k' <> k -> nth_error (s_workers st) k' = Some y -> hold y <> Some (id c)).
      { intros k' y Nk Ey Hy. apply Nk. destruct Iho as [U _]. eapply U; [exact Ey|exact H|exact Hy|]. cbn [hold]. congruence. }
      assert (NS : forall k' x, nth_error ws' k' = Some x -> issend x = false).
      { intros k' x Ex. destruct (NW _ _ Ex) as [(_ & ->)|(Nk & y & Ey & ->)]; [reflexivity|]. rewrite issend_wake.
        destruct (issend y) eqn:Sy; [|reflexivity]. exfalso. apply Nk. eapply one_sender; [exact Imx|exact Ey|exact H|exact Sy|reflexivity]. }
      simpl_inv; auto; fold ws'.
      + lia.
      + rewrite Ei. unfold id. lia.
      + split; [unfold ws'; rewrite upd_length, map_length; exact Lw|]. intros k' x Ex.
        destruct (NW _ _ Ex) as [(_ & ->)|(Nk & y & Ey & ->)]; [exact Wi|]. apply wok_next; eauto.
      + destruct Iho as [U X]. split.
        * intros k1 k2 w1 w2 x E1 E2 H1 H2.
          destruct (NW _ _ E1) as [(_ & ->)|(N1 & y1 & Ey1 & ->)]; [discriminate|].
          destruct (NW _ _ E2) as [(_ & ->)|(N2 & y2 & Ey2 & ->)]; [discriminate|].
          rewrite hold_wake in H1, H2. eauto.
        * intros i Hi. destruct (X i) as (k' & y & Ey & Hy); [lia|]. exists k', (wake y). rewrite hold_wake. split; [|exact Hy].
          unfold ws'. rewrite nth_upd_other; [rewrite nth_error_map, Ey; reflexivity|].
          intros ->. rewrite H in Ey. inv Ey. cbn [hold] in Hy. inv Hy. apply id_inj in H2. lia.
      + split; [|discriminate]. intros k' x Ex Cx. destruct (NW _ _ Ex) as [(_ & ->)|(Nk & y & Ey & ->)]; [discriminate|].
        rewrite crit_wake in Cx. destruct Imx as [A _]. pose proof (A _ _ Ey Cx). pose proof (A _ _ H eq_refl). congruence.
      + assert (Cs : countb stopped ws' = countb stopped (s_workers st)).
        { unfold ws'. rewrite (stopped_upd _ k (wake (WSend w did gs))); [| |reflexivity].
          - rewrite countb_map. apply countb_ext. apply stopped_wake.
          - rewrite nth_error_map, H. reflexivity. }
        unfold Mn in *. rewrite Cs. exact Imn.
      + destruct Isv as (Lv & A & B). split; [exact Lv|]. split.
        * intros _ j v s0 Ev Es.
          destruct (outs_some c) as (o & Eo & Lo); [lia|]. rewrite (after_S _ _ _ _ Eo).
          destruct (nth_ex gs j) as [g Eg]; [rewrite Lg, <- Lv; eapply nth_len, Ev|].
          assert (g = GDone) as ->. { rewrite Forall_forall in H0. apply H0. eapply nth_error_In, Eg. }
          destruct (B _ _ _ _ H j v s0 _ o Ev Es Eg Eo) as (X & Y). split; [left; exact X|exact Y].
        * intros k0 w0 did0 gs0 E0. apply NS in E0. discriminate.
  Qed.

  Lemma find_or {A} (f : A -> bool) l :
    (forall k x, nth_error l k = Some x -> f x = false) \/ exists k x, nth_error l k = Some x /\ f x = true.
  Proof.
    induction l as [|y l IH].
    - left. intros [|k] x E; discriminate.
    - destruct (f y) eqn:Ey; [right; exists O, y; auto|]. destruct IH as [IH|(k & x & E & F)].
      + left. intros [|k] x E; cbn [nth_error] in E; [congruence|eauto].
      + right. exists (Datatypes.S k), x. auto.
  Qed.
  Definition isdo (w : wstate) : bool := match w with WDo _ _ _ => true | _ => false end.
  Definition islock (w : wstate) : bool := match w with WLock _ _ _ => true | _ => false end.
  Definition isidle (w : wstate) : bool := match w with WIdle _ => true | _ => false end.
  Definition gbusy (g : gstate) : bool := match g with GDone => false | _ => true end.
  Definition vrecv (v : server) : bool := match v_st v with VRecv => true | _ => false end.

  Lemma progress st c s : (0 < ns)%nat -> Inv st c s -> final st \/ exists st', step work absorb st st'.
  Proof.
    intros Hns I. pose proof I as [Ics Icl Imono Iws Iho Imx Imn Icd Isv]. destruct Iws as [Lw Hw].
    destruct (find_or isdo (s_workers st)) as [ND|(k & x & Ex & F)].
    2:{ right. destruct x as [|w did d| | | | |]; try discriminate. destruct (Hw _ _ Ex) as (Wi & _).
        destruct (HW w did d Wi) as (w' & E & _). eexists. eapply StepDo; eauto. }
    destruct (s_mutex st) as [k|] eqn:Em.
    { right. destruct Imx as [_ B]. destruct (B k eq_refl) as (x & Ex & Cx).
      destruct x as [| | |w did bs| |w did gs|]; try discriminate.
      - destruct (N.eq_dec (s_mono st) (sub32 did 1)).
        + eexists. eapply StepSpawn; eauto.
        + eexists. eapply StepWait; eauto.
      - destruct (Hw _ _ Ex) as (Wi & Ei & R & Lg). destruct Isv as (Lv & A & B').
        destruct (find_or gbusy gs) as [ND'|(j & g & Eg & F)].
        + eexists. eapply StepSent; [exact Ex|]. apply Forall_forall. intros g Hg. apply In_nth_error in Hg.
          destruct Hg as [j Eg]. apply ND' in Eg. destruct g; try discriminate. reflexivity.
        + pose proof (nth_len _ _ _ Eg) as Lj. rewrite Lg in Lj.
          destruct (nth_ex (s_servers st) j) as [v Ev]; [lia|].
          destruct (nth_ex shards0 j) as [s0 Es]; [lia|].
          destruct (outs_some c) as (o & Eo & Lo); [lia|].
          pose proof (B' _ _ _ _ Ex j v s0 g o Ev Es Eg Eo) as X.
          pose proof (sending_open _ _ _ _ _ _ _ _ _ I Ex Ev) as Op.
          destruct g; [| |discriminate]; cbn [srv] in X.
          * destruct X as (X & _). eexists. eapply StepPost; eauto. split; eauto.
          * destruct X as [(dn & [|p rest] & _ & X & _)|(X & _)].
            -- eexists. eapply StepServed; eauto.
            -- eexists. eapply StepAbsorb; eauto.
            -- eexists. eapply StepAck; eauto. split; eauto. }
    destruct (find_or islock (s_workers st)) as [NL|(k & x & Ex & F)].
    2:{ right. destruct x as [| |w did bs| | | |]; try discriminate. eexists. eapply StepLock; eauto. }
    assert (NC : forall k w, nth_error (s_workers st) k = Some w -> crit w = false).
    { intros k w E. destruct (crit w) eqn:Cw; [|reflexivity]. destruct Imx as [A _]. specialize (A _ _ E Cw). discriminate. }
    assert (c = s) as <-.
    { assert (c = s \/ c < s)%nat as [X|X] by lia; [exact X|]. exfalso.
      destruct Iho as [_ Y]. destruct (Y c) as (k & w & E & Hh); [lia|].
      pose proof (ND _ _ E). pose proof (NL _ _ E). pose proof (NC _ _ E). specialize (Hw _ _ E).
      destruct w; try discriminate. destruct Hw as (_ & i & R & -> & _). cbn [hold] in Hh. inv Hh. apply id_inj in H3. lia. }
    assert (IS : forall k w, nth_error (s_workers st) k = Some w -> (exists x, w = WIdle x) \/ w = WStop).
    { intros k w E. pose proof (ND _ _ E). pose proof (NL _ _ E). pose proof (NC _ _ E). specialize (Hw _ _ E).
      destruct w; try discriminate; eauto. destruct Hw as (_ & i & R & _). lia. }
    assert (NS : forall k w, nth_error (s_workers st) k = Some w -> issend w = false).
    { intros k w E. destruct (IS _ _ E) as [(x & ->)| ->]; reflexivity. }
    assert (CD : Forall client_done (s_clients st) \/
      (~ Forall client_done (s_clients st) /\ (s_main st = MRun -> exists st', step work absorb st st'))).
    { destruct Icl as (cl & Ec & [(A & B & _)|(d & A & _)]); rewrite Ec.
      - destruct (cl_docs cl) as [|d r] eqn:El.
        + left. constructor; [|constructor]. split; auto.
        + right. split.
          * intros F. inv F. destruct H1 as [_ X]. congruence.
          * intros _. eexists. eapply (StepId _ _ st O cl d r); auto. rewrite Ec. reflexivity.
      - right. split.
        + intros F. inv F. destruct H1 as [X _]. congruence.
        + intros EM. rewrite EM in Imn. cbn [Mn] in Imn. destruct (nth_ex (s_workers st) 0) as [w Ew]; [lia|].
          destruct (IS _ _ Ew) as [(x & ->)| ->].
          * eexists. eapply (StepGive _ _ st O cl); eauto. rewrite Ec. reflexivity.
          * pose proof (countb_zero _ _ Imn _ _ Ew). discriminate. }
    assert (CF : s_main st = MRun \/ Forall client_done (s_clients st)).
    { unfold Mn in Imn. destruct (s_main st); auto; right; apply Imn. }
    destruct CD as [CD|[CD X]].
    2:{ right. destruct CF as [CF|CF]; [auto|contradiction]. }
    unfold Mn in Imn. destruct (s_main st) as [|[|n]|j] eqn:EM.
    - right. eexists. apply StepClose; auto.
    - right. eexists. apply StepShutDone; auto.
    - right. destruct Imn as [_ Cn]. destruct (countb_lt stopped (s_workers st)) as (k & w & Ek & Sk); [lia|].
      destruct (IS _ _ Ek) as [(x & ->)| ->]; [|discriminate]. eexists. eapply StepShutdown; eauto.
    - destruct Imn as (_ & Cn & Lj). destruct Isv as (Lv & A & B).
      assert (j < nsh \/ j = nsh)%nat as [G|G] by lia.
      + right. destruct (nth_ex (s_servers st) j) as [v Ev]; [lia|]. eexists. eapply StepCloseChan; eauto.
      + subst j. destruct (find_or vrecv (s_servers st)) as [NV|(j & v & Ev & F)].
        * left. split; [exact CD|]. split; [rewrite EM, Lv; reflexivity|]. split.
          -- apply Forall_forall. intros w Hh. apply In_nth_error in Hh. destruct Hh as [k Ek].
             rewrite <- Lw in Cn. pose proof (countb_all _ _ Cn _ _ Ek). destruct w; try discriminate. reflexivity.
          -- apply Forall_forall. intros v Hh. apply In_nth_error in Hh. destruct Hh as [j Ej].
             destruct (nth_ex shards0 j) as [s0 Es]; [rewrite HS, <- Lv; eapply nth_len, Ej|].
             destruct (A NS j v s0 Ej Es) as ([X|(X & _)] & _); [|exact X].
             pose proof (NV _ _ Ej) as Y. unfold vrecv in Y. rewrite X in Y. discriminate.
        * right. pose proof (Icd j v Ev) as Cj. pose proof (nth_len _ _ _ Ev) as Lj'.
          assert (v_closed v = true) by (rewrite Cj; apply Nat.ltb_lt; lia).
          unfold vrecv in F. destruct (v_st v) eqn:Es; try discriminate.
          eexists. eapply StepStop; eauto.
  Qed.

  (** Termination measure. *)
  Fixpoint sumf {A} (f : A -> nat) (l : list A) : nat := match l with [] => O | x :: r => (f x + sumf f r)%nat end.
  Lemma sumf_upd {A} (f : A -> nat) l : forall k x y, nth_error l k = Some x ->
    (sumf f (upd k y l) + f x = sumf f l + f y)%nat.
  Proof.
    induction l as [|z l IH]; intros [|k] x y E; cbn [nth_error upd sumf] in *; try discriminate.
    - inv E. lia.
    - specialize (IH k x y E). lia.
  Qed.
  Lemma sumf_map {A B} (f : B -> nat) (g : A -> B) l : sumf f (map g l) = sumf (fun x => f (g x)) l.
  Proof. induction l as [|x l IH]; cbn [map sumf]; [reflexivity|]. rewrite IH. reflexivity. Qed.

  Definition gm (g : gstate) : nat := match g with GSend ps => length ps + 4 | GAck => 1 | GDone => 0 end%nat.
  Definition xm (bs : list (list P)) : nat := (2 * ns + 1 + sumf (fun ps => length ps + 4)%nat bs)%nat.
  Definition wm (w : wstate) : nat :=
    match w with
    | WDo _ did d => xm (out did d) + 3
    | WLock _ _ bs => xm bs + 2
    | WChk _ _ bs => xm bs + 1
    | WWait _ _ bs => xm bs
    | WSend _ _ gs => 2 * ns + 1 + sumf gm gs
    | _ => 0
    end%nat.
  Definition vm (v : server) : nat := match v_st v with VRecv => 1 | VBusy ps => length ps + 3 | VAck => 2 | VStop => 0 end%nat.
  Fixpoint rem (n : N) (ds : list D) : nat :=
    match ds with [] => O | d :: r => (xm (out n d) + 5 + rem (u32 (n + 1)) r)%nat end.
  Definition cm (next : N) (c : @client D) : nat :=
    (match cl_send c with Some (did, d) => xm (out did d) + 4 | None => 0 end + rem next (cl_docs c))%nat.
  Definition mm (m : mstate) : nat :=
    match m with MRun => ns + nsh + 3 | MClose k => k + nsh + 2 | MChan j => nsh - j end%nat.
  Definition mu (st : state) : nat :=
    (sumf (cm (s_next st)) (s_clients st) + mm (s_main st) + sumf wm (s_workers st) + sumf vm (s_servers st))%nat.

  Lemma wm_wake ws : (sumf wm (map wake ws) <= sumf wm ws + 2 * length ws)%nat.
  Proof.
    induction ws as [|w ws IH]; cbn [map sumf length]; [lia|].
    assert (wm (wake w) <= wm w + 2)%nat by (destruct w; cbn [wake wm]; lia). lia.
  Qed.
  Lemma cm_none next next' c : cl_send c = None -> cl_docs c = [] -> cm next c = cm next' c.
  Proof. intros A B. unfold cm. rewrite A, B. reflexivity. Qed.

  Lemma mu_step st st' c s : Inv st c s -> step work absorb st st' -> (mu st' < mu st)%nat.
  Proof.
    intros I H. pose proof I as [Ics Icl Imono Iws Iho Imx Imn Icd Isv]. destruct Iws as [Lw Hw]. destruct H;
      unfold mu, set_client, set_next, set_main, set_worker, set_workers, set_mutex, set_mono, set_server;
      cbn [s_clients s_next s_main s_workers s_mutex s_mono s_servers].
    - destruct Icl as (cl & Ec & _). rewrite Ec in *. destruct i as [|i]; [|destruct i; discriminate]. inv H.
      cbn [upd sumf]. unfold cm. cbn [cl_send cl_docs]. rewrite H0, H1. cbn [rem]. lia.
    - pose proof (sumf_upd wm _ _ _ (WDo w did d) H1) as X. cbn [wm] in X.
      pose proof (sumf_upd (cm (s_next st)) _ _ _ (MkClient None (cl_docs c0)) H) as Y.
      unfold cm at 2 4 in Y. cbn [cl_send cl_docs] in Y. rewrite H0 in Y. lia.
    - rewrite H. cbn [mm]. lia.
    - pose proof (sumf_upd wm _ _ _ WStop H0) as X. cbn [wm] in X. rewrite H. cbn [mm]. lia.
    - rewrite H. cbn [mm]. lia.
    - destruct Isv as [Lv _]. pose proof (nth_len _ _ _ H0).
      pose proof (sumf_upd vm _ _ _ (MkServer (v_st v) (v_shard v) true) H0) as X. unfold vm at 2 4 in X. cbn [v_st] in X.
      rewrite H. cbn [mm]. lia.
    - destruct (Hw _ _ H) as (Wi & _). destruct (HW w did d Wi) as (w2 & E2 & _). rewrite H0 in E2. inv E2.
      pose proof (sumf_upd wm _ _ _ (WLock w2 did (out did d)) H) as X. cbn [wm] in X. lia.
    - pose proof (sumf_upd wm _ _ _ (WChk w did bs) H) as X. cbn [wm] in X. lia.
    - pose proof (sumf_upd wm _ _ _ (WWait w did bs) H) as X. cbn [wm] in X. lia.
    - pose proof (sumf_upd wm _ _ _ (WSend w did (map GSend bs)) H) as X. cbn [wm] in X. rewrite sumf_map in X.
      change (sumf (fun x => gm (GSend x)) bs) with (sumf (fun ps : list P => length ps + 4)%nat bs) in X. unfold xm in X. lia.
    - destruct H as [Hk Hg]. pose proof (sumf_upd wm _ _ _ (WSend w did (upd j GAck gs)) Hk) as X. cbn [wm] in X.
      pose proof (sumf_upd gm _ _ _ GAck Hg) as Y. cbn [gm] in Y.
      pose proof (sumf_upd vm _ _ _ (MkServer (VBusy ps) (v_shard v) false) H0) as Z. unfold vm at 2 4 in Z. cbn [v_st] in Z.
      rewrite H1 in Z. lia.
    - exfalso. destruct H as [Hk _], H0 as [Hk' _]. apply H1. eapply one_sender; [exact Imx|exact Hk|exact Hk'|reflexivity|reflexivity].
    - destruct H as [Hk Hg]. pose proof (sumf_upd wm _ _ _ (WSend w did (upd j GDone gs)) Hk) as X. cbn [wm] in X.
      pose proof (sumf_upd gm _ _ _ GDone Hg) as Y. cbn [gm] in Y.
      pose proof (sumf_upd vm _ _ _ (MkServer VRecv (v_shard v) false) H0) as Z. unfold vm at 2 4 in Z. cbn [v_st] in Z.
      rewrite H1 in Z. lia.
    - pose proof (sumf_upd vm _ _ _ (MkServer VStop (v_shard v) true) H) as Z. unfold vm at 2 4 in Z. cbn [v_st] in Z.
      rewrite H0 in Z. lia.
    - destruct H as [Hk Hg]. pose proof (sumf_upd wm _ _ _ (WSend w did (upd j GDone gs)) Hk) as X. cbn [wm] in X.
      pose proof (sumf_upd gm _ _ _ GDone Hg) as Y. cbn [gm] in Y. lia.
    - pose proof (sumf_upd vm _ _ _ (MkServer (VBusy ps) (absorb (v_shard v) p) (v_closed v)) H) as Z. unfold vm at 2 4 in Z. cbn [v_st] in Z.
      rewrite H0 in Z. cbn [length] in Z. lia.
    - pose proof (sumf_upd vm _ _ _ (MkServer VAck (v_shard v) (v_closed v)) H) as Z. unfold vm at 2 4 in Z. cbn [v_st] in Z.
      rewrite H0 in Z. cbn [length] in Z. lia.
    - assert (E : nth_error (map wake (s_workers st)) k = Some (WSend w did gs)) by (rewrite nth_error_map, H; reflexivity).
      pose proof (sumf_upd wm _ _ _ (WIdle w) E) as X. cbn [wm] in X. pose proof (wm_wake (s_workers st)). lia.
  Qed.

  Lemma no_closed_send st c s : Inv st c s -> ~ sends_on_closed st.
  Proof.
    intros I (j & v & Ev & Cv & [X|(k & w & did & gs & ps & Hk & _)]).
    - destruct (busy_sender st c s j v I Ev) as (k & w & did & gs & g & Hk & _); [congruence|congruence|].
      pose proof (sending_open _ _ _ _ _ _ _ _ _ I Hk Ev). congruence.
    - pose proof (sending_open _ _ _ _ _ _ _ _ _ I Hk Ev). congruence.
  Qed.

  Lemma flat_app j a b : flat j (a ++ b) = flat j a ++ flat j b.
  Proof. unfold flat. rewrite map_app, concat_app. reflexivity. Qed.
  (** Every shard has absorbed a prefix of the posts of the documents in order. *)
  Lemma Inv_prefix st c s j v s0 : Inv st c s -> nth_error (s_servers st) j = Some v -> nth_error shards0 j = Some s0 ->
    exists pre post, flat j outs = pre ++ post /\ v_shard v = fold_left absorb pre s0.
  Proof.
    intros I Ev Es. pose proof I as [Ics Icl Imono Iws Iho Imx Imn Icd Isv]. destruct Iws as [Lw Hw]. destruct Isv as (Lv & A & B).
    destruct (sender_exists (s_workers st)) as [H|(k & w & did & gs & E)].
    - destruct (A H j v s0 Ev Es) as (_ & X). exists (flat j (firstn c outs)), (flat j (skipn c outs)).
      rewrite <- flat_app, firstn_skipn. auto.
    - destruct (Hw _ _ E) as (_ & _ & R & Lg). destruct (outs_some c) as (o & Eo & Lo); [lia|].
      destruct (nth_ex gs j) as [g Eg]; [rewrite Lg, <- Lv; eapply nth_len, Ev|].
      pose proof (B _ _ _ _ E j v s0 g o Ev Es Eg Eo) as X.
      destruct (nth_error_split _ _ Eo) as (l1 & l2 & El & Ll).
      assert (F1 : firstn c outs = l1) by (rewrite El, <- Ll; apply firstn_app_exact; reflexivity).
      assert (FT : flat j outs = flat j l1 ++ nth j o [] ++ flat j l2).
      { rewrite El, flat_app. f_equal. }
      unfold after in X. rewrite F1 in X. destruct g; cbn [srv] in X.
      + destruct X as (_ & _ & X). exists (flat j l1), (nth j o [] ++ flat j l2). auto.
      + destruct X as [(dn & rest & E1 & _ & X)|(_ & X)].
        * exists (flat j l1 ++ dn), (rest ++ flat j l2). rewrite fold_left_app. split; [|exact X].
          rewrite FT, E1, <- !app_assoc. reflexivity.
        * exists (flat j l1 ++ nth j o []), (flat j l2). rewrite fold_left_app, <- app_assoc. auto.
      + destruct X as (_ & X). exists (flat j l1 ++ nth j o []), (flat j l2). rewrite fold_left_app, <- app_assoc. auto.
  Qed.
  Lemma Inv_final st c s : Inv st c s -> final st ->
    c = length docs /\ map v_shard (s_servers st) = map (fun p => fold_left absorb (flat (fst p) outs) (snd p)) (combine (seq 0 nsh) shards0).
  Proof.
    intros I (F1 & F2 & F3 & F4). pose proof I as [Ics Icl Imono Iws Iho Imx Imn Icd Isv].
    assert (s = length docs) as Es by (eapply Cl_done; [lia|exact Icl|exact F1]).
    assert (NB : forall k w, nth_error (s_workers st) k = Some w -> w = WStop).
    { intros k w E. rewrite Forall_forall in F3. apply F3. eapply nth_error_In, E. }
    assert (c = s) as ->.
    { assert (c = s \/ c < s)%nat as [X|X] by lia; [exact X|]. exfalso. destruct Iho as [_ Y].
      destruct (Y c) as (k & w & E & Hh); [lia|]. rewrite (NB _ _ E) in Hh. discriminate. }
    split; [exact Es|]. destruct Isv as (Lv & A & _). apply nth_error_ext'. intros j.
    rewrite !nth_error_map. destruct (nth_error (s_servers st) j) as [v|] eqn:Ev.
    - destruct (nth_ex shards0 j) as [s0 E0]; [rewrite HS, <- Lv; eapply nth_len, Ev|].
      assert (EC : nth_error (combine (seq 0 nsh) shards0) j = Some (j, s0)).
      { assert (Lj : (j < nsh)%nat) by (rewrite <- Lv; eapply nth_len, Ev). clear -HS E0 Lj.
        assert (G : forall b n l j s0, nth_error l j = Some s0 -> (j < n)%nat -> nth_error (combine (seq b n) l) j = Some ((b + j)%nat, s0 : S)).
        { intros b n. revert b. induction n as [|n IH]; intros b [|x l] [|i] y E L; cbn [seq combine nth_error] in *; try discriminate; try lia.
          - inv E. f_equal. f_equal. lia.
          - rewrite (IH (Datatypes.S b) l i y E) by lia. f_equal. f_equal. lia. }
        rewrite (G 0%nat nsh shards0 j s0 E0 Lj). reflexivity. }
      rewrite EC. cbn [option_map fst snd]. f_equal.
      destruct (A) with (j := j) (v := v) (s0 := s0) as (_ & X); auto.
      { intros k w E. rewrite (NB _ _ E). reflexivity. }
      rewrite X. unfold after. rewrite firstn_all2; [reflexivity|]. rewrite outs_length. lia.
    - apply nth_error_None in Ev. assert (EN : nth_error (combine (seq 0 nsh) shards0) j = None).
      { apply nth_error_None. rewrite combine_length, seq_length. lia. }
      rewrite EN. reflexivity.
  Qed.

  Lemma Inv_steps st st' c s : Inv st c s -> steps work absorb st st' -> exists c' s', Inv st' c' s' /\ (c <= c')%nat.
  Proof.
    intros I H. induction H as [st|st1 st2 st3 H IH Hs]; [exists c, s; auto|].
    destruct (IH I) as (c' & s' & I' & L). destruct (Inv_step _ _ _ _ I' Hs) as (c2 & s2 & I2 & L2). exists c2, s2. split; [exact I2|lia].
  Qed.
  Lemma stepsn_bound n st st' c s : Inv st c s -> stepsn work absorb n st st' -> (n + mu st' <= mu st)%nat /\ exists c' s', Inv st' c' s'.
  Proof.
    intros I H. induction H as [st|n st1 st2 st3 H IH Hs]; [split; [lia|eauto]|].
    destruct (IH I) as (L & c' & s' & I'). pose proof (mu_step _ _ _ _ I' Hs). destruct (Inv_step _ _ _ _ I' Hs) as (c2 & s2 & I2 & L2).
    split; [lia|eauto].
  Qed.

  (** Once the channels are being closed nothing is under way. *)
  Lemma Inv_chan st c s j0 : Inv st c s -> s_main st = MChan j0 ->
    Forall client_done (s_clients st) /\
    forall j v s0, nth_error (s_servers st) j = Some v -> nth_error shards0 j = Some s0 ->
      v_shard v = fold_left absorb (flat j outs) s0.
  Proof.
    intros I M. pose proof I as [Ics Icl Imono Iws Iho Imx Imn Icd Isv]. rewrite M in Imn. destruct Imn as (F & Cn & _).
    split; [exact F|]. destruct Iws as [Lw _]. rewrite <- Lw in Cn.
    assert (NB : forall k w, nth_error (s_workers st) k = Some w -> stopped w = true) by (apply countb_all, Cn).
    assert (s = length docs) as Es by (eapply Cl_done; [lia|exact Icl|exact F]).
    assert (c = s) as ->.
    { assert (c = s \/ c < s)%nat as [X|X] by lia; [exact X|]. exfalso. destruct Iho as [_ Y].
      destruct (Y c) as (k & w & E & Hh); [lia|]. apply NB in E. destruct w; discriminate. }
    intros j v s0 Ev E0. destruct Isv as (Lv & A & _).
    destruct (A) with (j := j) (v := v) (s0 := s0) as (_ & X); auto.
    { intros k w E. apply NB in E. destruct w; try discriminate; reflexivity. }
    rewrite X. unfold after. rewrite firstn_all2; [reflexivity|]. rewrite outs_length. lia.
  Qed.
  Lemma Inv_servers st c s : Inv st c s -> length (s_servers st) = nsh.
  Proof. intros I. apply (i_sv _ _ _ I). Qed.
End ConcP.

(** Several callers: caller A takes the first id and is overtaken by caller B, whose next
    documents occupy all workers. *)
Section Stuck.
  Context {W D P S : Type}.
  Variable work : W -> N -> D -> result (W * list (list P)).
  Variable absorb : S -> P -> S.
  Variable winv : W -> Prop.
  Variable out : N -> D -> list (list P).
  Hypothesis HW : forall w did d, winv w -> exists w', work w did d = Ok (w', out did d) /\ winv w'.
  Variables (a : D) (shards : list S) (last0 : N).

  Notation st ca cb next ws := (@MkState W D P S [ca; cb] next MRun ws None last0 (map (fun s => MkServer VRecv s false) shards)).
  Definition wstuck (w : @wstate W D P) : Prop := exists x did bs, w = WWait x did bs.

  Lemma steps_trans s1 s2 s3 : steps work absorb s1 s2 -> steps work absorb s2 s3 -> steps work absorb s1 s3.
  Proof. intros A B. induction B; [exact A|]. econstructor; [apply IHB, A|exact H]. Qed.
  Lemma steps_one s1 s2 : step work absorb s1 s2 -> steps work absorb s1 s2.
  Proof. intros A. econstructor; [constructor|exact A]. Qed.

  (** One document of B swallowed by the first idle worker. *)
  Lemma swallow ca d r n ws1 w ws2 : winv w -> n < 4294967295 -> n <> last0 + 1 -> 0 < n ->
    exists x bs, steps work absorb (st ca (MkClient None (d :: r)) n (ws1 ++ WIdle w :: ws2))
                             (st ca (MkClient None r) (n + 1) (ws1 ++ WWait x n bs :: ws2)).
  Proof.
    intros Hw Hn Hl Hp. destruct (HW w n d Hw) as (x & Ex & _). exists x, (out n d).
    assert (N1 : forall y, nth_error (ws1 ++ y :: ws2) (length ws1) = Some (y : @wstate W D P)).
    { intros y. rewrite nth_error_app2, Nat.sub_diag by lia. reflexivity. }
    eapply steps_step. eapply steps_step. eapply steps_step. eapply steps_step. eapply steps_step. apply steps_refl.
    - eapply (StepId _ _ _ 1%nat); reflexivity.
    - unfold set_client, set_next. cbn [s_clients s_next s_main s_workers s_mutex s_mono s_servers upd].
      eapply (StepGive _ _ _ 1%nat _ n d (length ws1) w); [reflexivity|reflexivity|apply N1].
    - unfold set_client, set_worker. cbn [s_clients s_next s_main s_workers s_mutex s_mono s_servers upd cl_docs]. rewrite upd_middle.
      eapply (StepDo _ _ _ (length ws1) w n d x (out n d)); [apply N1|exact Ex].
    - unfold set_worker. cbn [s_clients s_next s_main s_workers s_mutex s_mono s_servers]. rewrite upd_middle.
      eapply (StepLock _ _ _ (length ws1) x n (out n d)); [apply N1|reflexivity].
    - unfold set_worker, set_mutex. cbn [s_clients s_next s_main s_workers s_mutex s_mono s_servers]. rewrite upd_middle.
      replace (u32 (n + 1)) with (n + 1) by (unfold u32; rewrite N.mod_small; lia).
      match goal with |- step _ _ ?s1 ?s2 =>
        replace s2 with (set_mutex None (set_worker (length ws1) (WWait x n (out n d)) s1)) end.
      + eapply StepWait; [apply N1|]. cbn [s_mono]. unfold sub32, u32. intros E. apply Hl. clear -E Hn Hp. lia.
      + unfold set_worker, set_mutex. cbn [s_clients s_next s_main s_workers s_mutex s_mono s_servers]. rewrite upd_middle. reflexivity.
  Qed.
  Lemma swallow_all ca r : forall ds ws1 ws2 n, length ds = length ws2 -> Forall winv ws2 -> Forall wstuck ws1 ->
    last0 + 1 < n -> n + nlen ds < 4294967295 ->
    exists ws, Forall wstuck ws /\
      steps work absorb (st ca (MkClient None (ds ++ r)) n (ws1 ++ map WIdle ws2)) (st ca (MkClient None r) (n + nlen ds) ws).
  Proof.
    induction ds as [|d ds IH]; intros ws1 [|w ws2] n L Fw Fs Hl Hn; cbn [length] in L; try discriminate.
    - exists ws1. split; [exact Fs|]. cbn [map app]. rewrite app_nil_r. unfold nlen. cbn [length].
      replace (n + N.of_nat 0) with n by lia. constructor.
    - inv Fw. cbn [map app]. unfold nlen in *. cbn [length] in *.
      destruct (swallow ca d (ds ++ r) n ws1 w (map WIdle ws2) H1) as (x & bs & St); [lia|lia|lia|].
      destruct (IH (ws1 ++ [WWait x n bs]) ws2 (n + 1)) as (ws & Fw' & St2); try lia; auto.
      { apply Forall_app. split; [exact Fs|]. constructor; [|constructor]. exists x, n, bs. reflexivity. }
      exists ws. split; [exact Fw'|]. rewrite <- app_assoc in St2. cbn [app] in St2.
      eapply steps_trans; [exact St|]. replace (n + N.of_nat (Datatypes.S (length ds))) with (n + 1 + N.of_nat (length ds)) by lia. exact St2.
  Qed.
  Theorem stuck ds ws0 : length ds = length ws0 -> Forall winv ws0 -> last0 + 2 + nlen ds < 4294967295 ->
    exists st', steps work absorb (init [[a]; ds] last0 ws0 shards) st' /\
      ~ final st' /\ forall st'', ~ step work absorb st' st''.
  Proof.
    intros L Fw Hn.
    destruct (swallow_all (MkClient (Some (last0 + 1, a)) []) [] ds [] ws0 (last0 + 2) L Fw (Forall_nil _)) as (ws & Fs & St); [lia|lia|].
    rewrite app_nil_r in St. eexists. split; [|split].
    - eapply steps_trans; [|exact St]. apply steps_one. unfold init. cbn [map].
      replace (u32 (last0 + 1)) with (last0 + 1) by (unfold u32; rewrite N.mod_small; lia).
      match goal with |- step _ _ ?s1 ?s2 => replace s2 with
        (set_next (u32 (s_next s1 + 1)) (set_client 0 (MkClient (Some (s_next s1, a)) []) s1)) end.
      + eapply StepId; reflexivity.
      + unfold set_next, set_client. cbn [s_clients s_next s_main s_workers s_mutex s_mono s_servers upd app].
        f_equal. unfold u32. rewrite N.mod_small; lia.
    - intros (F & _). inv F. destruct H1 as [X _]. discriminate.
    - intros st'' H.
      assert (NW : forall k w, nth_error ws k = Some w -> wstuck w).
      { intros k w E. rewrite Forall_forall in Fs. apply Fs. eapply nth_error_In, E. }
      inversion H; subst; cbn [s_clients s_next s_main s_workers s_mutex s_mono s_servers] in *;
        unfold sender_at in *; cbn [s_workers] in *;
        repeat match goal with X : _ /\ _ |- _ => destruct X end;
        try match goal with X : nth_error ws _ = Some _ |- _ => apply NW in X; destruct X as (? & ? & ? & X); discriminate end;
        try discriminate.
      + destruct i as [|[|i]]; cbn [nth_error] in *.
        * inv H0. discriminate.
        * inv H0. discriminate.
        * destruct i; discriminate.
      + inv H1. destruct H4 as [X _]. discriminate.
      + apply nth_map_inv in H0. destruct H0 as (y & _ & ->). discriminate.
      + apply nth_map_inv in H0. destruct H0 as (y & _ & ->). discriminate.
      + apply nth_map_inv in H0. destruct H0 as (y & _ & ->). discriminate.
  Qed.
End Stuck.
