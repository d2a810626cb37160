(** An indexer that has been closed. *)
From Verif Require Import Model.Base Model.Conc Proof.Tactics.
Local Open Scope N_scope.

Section Closed.
  Context {W D P S : Type}.
  Variables (work : W -> N -> D -> result (W * list (list P))) (absorb : S -> P -> S).
  Notation state := (state (W := W) (D := D) (P := P) (S := S)).
  Definition idle (st : state) : Prop := Forall (fun w => w = WStop) (s_workers st) /\ Forall (fun v => v_st v = VStop) (s_servers st).
  Lemma idle_worker st k w : idle st -> nth_error (s_workers st) k = Some w -> w = WStop.
  Proof. intros [A _] E. rewrite Forall_forall in A. apply A. eapply nth_error_In, E. Qed.
  Lemma idle_server st k v : idle st -> nth_error (s_servers st) k = Some v -> v_st v = VStop.
  Proof. intros [_ A] E. rewrite Forall_forall in A. apply A. eapply nth_error_In, E. Qed.
  (** Only a new caller of Add and the goroutine that runs Close can do something. *)
  Lemma idle_step st st' : idle st -> step work absorb st st' ->
    (exists i c d r, nth_error (s_clients st) i = Some c /\ cl_send c = None /\ cl_docs c = d :: r /\
       st' = set_next (u32 (s_next st + 1)) (set_client i (MkClient (Some (s_next st, d)) r) st)) \/
    (s_main st = MRun /\ Forall client_done (s_clients st) /\ st' = set_main (MClose (length (s_workers st))) st) \/
    (s_main st = MClose O /\ st' = set_main (MChan O) st) \/
    (exists j v, s_main st = MChan j /\ nth_error (s_servers st) j = Some v).
  Proof.
    intros I H.
    inversion H as [? i c d r E1 E2 E3|? i c did d k w E1 E2 E3|? E1 E2|? n k w E1 E2|? E1|? j v E1 E2|? k w did d w' bs E1 E2|? k w did bs E1 E2|? k w did bs E1 E2|? k w did bs E1 E2
      |? k w did gs j ps v [E1 E2] E3 E4 E5|? k w did gs j ps k' w' did' gs' v [E1 E2] E3 E4 E5 E6|? k w did gs j v [E1 E2] E3 E4 E5|? j v E1 E2 E3|? k w did gs j v [E1 E2] E3 E4|? j v p ps E1 E2|? j v E1 E2|? k w did gs E1 E2];
      subst; try (pose proof (idle_worker _ _ _ I E1); discriminate); try (pose proof (idle_server _ _ _ I E1); congruence).
    - left. eauto 10.
    - pose proof (idle_worker _ _ _ I E3). discriminate.
    - right. left. auto.
    - pose proof (idle_worker _ _ _ I E2). discriminate.
    - right. right. left. auto.
    - right. right. right. eauto.
  Qed.

  (** Add. *)
  Definition calling_add (d : D) (st : state) : state :=
    MkState [MkClient None [d]] (s_next st) (s_main st) (s_workers st) (s_mutex st) (s_mono st) (s_servers st).
  Definition waiting_add (d : D) (st : state) : state :=
    MkState [MkClient (Some (s_next st, d)) []] (u32 (s_next st + 1)) (s_main st) (s_workers st) (s_mutex st) (s_mono st) (s_servers st).
  Lemma add_stuck d st : final st -> (forall st', ~ step work absorb (waiting_add d st) st') /\
    forall st', steps work absorb (calling_add d st) st' -> st' = calling_add d st \/ st' = waiting_add d st.
  Proof.
    intros (_ & Em & Fw & Fv).
    assert (No : forall cs nx j v, s_main (MkState cs nx (s_main st) (s_workers st) (s_mutex st) (s_mono st) (s_servers st)) = MChan j -> nth_error (s_servers st) j = Some v -> False).
    { intros cs nx j v E1 E2. cbn [s_main] in E1. rewrite Em in E1. assert (j = length (s_servers st)) as -> by congruence. assert (X : nth_error (s_servers st) (length (s_servers st)) <> None) by congruence. apply nth_error_Some in X. lia. }
    assert (Stk : forall st', ~ step work absorb (waiting_add d st) st').
    { intros st' H. destruct (idle_step (waiting_add d st) st' (conj Fw Fv) H) as [(i & c & d' & r & E1 & E2 & E3 & _)|[(E1 & _)|[(E1 & _)|(j & v & E1 & E2)]]].
      - cbn [waiting_add s_clients] in E1. destruct i as [|i]; [|destruct i; discriminate]. cbn [nth_error] in E1. assert (c = MkClient (Some (s_next st, d)) []) as -> by congruence. discriminate.
      - cbn [waiting_add s_main] in E1. congruence.
      - cbn [waiting_add s_main] in E1. congruence.
      - eapply No; [exact E1|exact E2]. }
    split; [exact Stk|]. intros st' H. remember (calling_add d st) as s0 eqn:E0. induction H as [s|s1 s2 s3 H IH Hs]; [left; reflexivity|].
    subst s1. destruct (IH eq_refl) as [->| ->]; [|exfalso; eapply Stk, Hs]. right.
    destruct (idle_step (calling_add d st) s3 (conj Fw Fv) Hs) as [(i & c & d' & r & E1 & E2 & E3 & ->)|[(E1 & _)|[(E1 & _)|(j & v & E1 & E2)]]].
    - cbn [calling_add s_clients] in E1. destruct i as [|i]; [|destruct i; discriminate]. cbn [nth_error] in E1. assert (c = MkClient None [d]) as -> by congruence.
      cbn [cl_docs] in E3. injection E3 as Ex Er. subst. reflexivity.
    - cbn [calling_add s_main] in E1. congruence.
    - cbn [calling_add s_main] in E1. congruence.
    - exfalso. eapply No; [exact E1|exact E2].
  Qed.
  (** Close. *)
  Lemma close_stuck st : final st -> s_workers st <> [] -> (forall st', ~ step work absorb (set_main (MClose (length (s_workers st))) st) st') /\
    forall st', steps work absorb (set_main MRun st) st' -> st' = set_main MRun st \/ st' = set_main (MClose (length (s_workers st))) st.
  Proof.
    intros (Fc & Em & Fw & Fv) Nw.
    assert (Nc : forall i c d r, nth_error (s_clients st) i = Some c -> cl_docs c = d :: r -> False).
    { intros i c d r E1 E2. rewrite Forall_forall in Fc. destruct (Fc c) as [_ X]; [eapply nth_error_In, E1|congruence]. }
    assert (Stk : forall st', ~ step work absorb (set_main (MClose (length (s_workers st))) st) st').
    { intros st' H. destruct (idle_step (set_main (MClose (length (s_workers st))) st) st' (conj Fw Fv) H) as [(i & c & d' & r & E1 & E2 & E3 & _)|[(E1 & _)|[(E1 & _)|(j & v & E1 & E2)]]].
      - cbn [set_main s_clients] in E1. eauto.
      - cbn [set_main s_main] in E1. congruence.
      - cbn [set_main s_main] in E1. destruct (s_workers st); [congruence|]. discriminate.
      - cbn [set_main s_main] in E1. discriminate. }
    split; [exact Stk|]. intros st' H. remember (set_main MRun st) as s0 eqn:E0. induction H as [s|s1 s2 s3 H IH Hs]; [left; reflexivity|].
    subst s1. destruct (IH eq_refl) as [->| ->]; [|exfalso; eapply Stk, Hs]. right.
    destruct (idle_step (set_main MRun st) s3 (conj Fw Fv) Hs) as [(i & c & d' & r & E1 & E2 & E3 & _)|[(E1 & E2 & ->)|[(E1 & _)|(j & v & E1 & E2)]]].
    - exfalso. cbn [set_main s_clients] in E1. eauto.
    - reflexivity.
    - cbn [set_main s_main] in E1. discriminate.
    - cbn [set_main s_main] in E1. discriminate.
  Qed.
  (** Workers do not appear or disappear. *)
  Lemma step_workers st st' : step work absorb st st' -> length (s_workers st') = length (s_workers st).
  Proof.
    intros H. inversion H; subst; cbn [set_client set_next set_main set_worker set_workers set_mutex set_mono set_server s_workers];
      rewrite ?upd_length, ?map_length; reflexivity.
  Qed.
  Lemma steps_workers st st' : steps work absorb st st' -> length (s_workers st') = length (s_workers st).
  Proof. induction 1; [reflexivity|]. erewrite step_workers by eassumption. assumption. Qed.
End Closed.
