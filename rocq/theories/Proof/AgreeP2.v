(** A posting list that has gone from one shard, and blots of another shard. *)
From Coq Require Import Permutation.
From Verif Require Import Model.Base Model.Address Model.Post Model.Poster Model.Shard Model.Dmd Model.Fnames Model.Config Model.Index Model.Query.
From Verif Require Import Spec.Reading Spec.Querying Spec.Counts Proof.Tactics Proof.AddressP Proof.QueryP Proof.QueryP2 Proof.QueryP3.
From Coq Require Import Lia.
Local Open Scope N_scope.

Lemma nth_gone b0 l : forall b, nth b (upd b0 (-1)%Z l) (-1)%Z = if (b =? b0)%nat then (-1)%Z else nth b l (-1)%Z.
Proof.
  revert b0. induction l as [|x l IH]; intros [|b0] [|b]; cbn [upd nth Nat.eqb]; try reflexivity; [destruct (b =? b0)%nat; reflexivity|apply IH].
Qed.

Section W.
  Variable grow : nat -> nat.
  Variables (ix : index) (place : N -> bytes * N * N) (content : nat -> nat -> list N) (fuel : nat).
  Hypothesis I : index_ok ix 2 content place.
  Variables (b0 b1 : nat) (x1 x2 x3 y1 y2 : N).
  Hypothesis L0 : (b0 < num_slots)%nat.
  Hypothesis L1 : (b1 < num_slots)%nat.
  Hypothesis C0 : content 0 b0 = [x1; x2; x3].
  Hypothesis C1 : content 1 b1 = [y1; y2].
  Hypothesis Z0 : forall b, (b < num_slots)%nat -> b <> b0 -> content 0 b = [].
  Hypothesis Z1 : forall b, (b < num_slots)%nat -> b <> b1 -> content 1 b = [].
  Hypothesis Hf : (0 < fuel)%nat.

  Lemma fill_none x fu f ps : (0 < fu)%nat -> reads f ps [] -> fill_loop grow x fu false f ps None = Ok (None, ps, true).
  Proof using. intros Lf R. destruct fu as [|k]; [exfalso; inversion Lf|]. cbn [fill_loop andb]. rewrite R. reflexivity. Qed.

  Lemma nothing_told dst : unlimited dst -> dst <> [] -> exists r, query_next grow (without_list ix b0) fuel 5 (start_query (without_list ix b0)) dst = Ok (r, true).
  Proof.
    destruct (shards2 ix place content I) as (s0 & s1 & Es).
    pose proof (io_perm _ _ _ _ I 0%nat s0) as P0. pose proof (io_perm _ _ _ _ I 1%nat s1) as P1. 
    pose proof (io_reads _ _ _ _ I 0%nat s0) as R0. pose proof (io_reads _ _ _ _ I 1%nat s1) as R1. rewrite Es in *.
    specialize (P0 eq_refl). specialize (P1 eq_refl). specialize (R0 eq_refl). specialize (R1 eq_refl).
    destruct (perm_top _ _ b0 P0 L0) as (T0 & B0 & N0).
    { destruct (R0 b0 L0) as [_ ->]. rewrite C0. reflexivity. }
    { intros b' Lb Nb. destruct (R0 b' Lb) as [_ ->]. rewrite Z0 by assumption. reflexivity. }
    destruct (perm_top _ _ b1 P1 L1) as (T1 & B1 & N1).
    { destruct (R1 b1 L1) as [_ ->]. rewrite C1. reflexivity. }
    { intros b' Lb Nb. destruct (R1 b' Lb) as [_ ->]. rewrite Z1 by assumption. reflexivity. }
    destruct (R0 b0 L0) as [_ Ct0]. rewrite C0 in Ct0. destruct (R1 b1 L1) as [_ Ct1]. rewrite C1 in Ct1.
    destruct (R0 _ B0) as [Re0 Ce0]. rewrite (Z0 _ B0 N0) in Re0, Ce0. destruct (R1 _ B1) as [Re1 Ce1]. rewrite (Z1 _ B1 N1) in Re1, Ce1.
    change (nlen [x1; x2; x3]) with 3 in Ct0. change (nlen [y1; y2]) with 2 in Ct1. change (nlen (@nil N)) with 0 in Ce0, Ce1.
    set (iy := without_list ix b0). set (t0 := MkShardIndex (upd b0 (-1)%Z (si_heads s0)) (si_counts s0) (si_perm s0) (si_file s0)).
    assert (Ey : ix_shards iy = [t0; s1]) by (unfold iy, without_list; cbn [ix_shards]; rewrite Es; reflexivity).
    set (ra := read_state_at t0 0). set (rb := read_state_at s1 0). set (rc := read_state_at t0 1). set (rd := read_state_at s1 1).
    assert (Ea : rs_at ra = 0%nat /\ rs_total ra = 3 /\ reads (si_file t0) (rs_posts ra) []).
    { unfold ra, read_state_at, read_state_for_blot_at. cbn [rs_at rs_total rs_posts si_counts si_perm si_heads si_file t0]. rewrite T0, Ct0. split; [reflexivity|]. split; [reflexivity|]. rewrite nth_gone, Nat.eqb_refl. reflexivity. }
    assert (Eb : rs_total rb = 2).
    { unfold rb, read_state_at, read_state_for_blot_at. rewrite T1. exact Ct1. }
    assert (Ec : rs_at rc = 1%nat /\ rs_total rc = 0 /\ reads (si_file t0) (rs_posts rc) []).
    { unfold rc, read_state_at, read_state_for_blot_at. cbn [rs_at rs_total rs_posts si_counts si_perm si_heads si_file t0]. split; [reflexivity|]. split; [exact Ce0|]. rewrite nth_gone. destruct (Nat.eqb_spec (nth 1 (si_perm s0) 0%nat) b0); [contradiction|exact Re0]. }
    assert (Ed : rs_at rd = 1%nat /\ rs_total rd = 0 /\ reads (si_file s1) (rs_posts rd) []).
    { unfold rd, read_state_at, read_state_for_blot_at. cbn [rs_at rs_total rs_posts]. auto. }
    destruct Ea as (Ea1 & Ea2 & Ea3), Ec as (Ec1 & Ec2 & Ec3), Ed as (Ed1 & Ed2 & Ed3).
    assert (St : start_query iy = MkQ [Some ra; Some rb] 0 2 0).
    { unfold start_query, set_max. rewrite Ey. cbn [map q_states q_n q_nil set_max_loop]. fold ra rb. rewrite Ea2, Eb. reflexivity. }
    intros U Ne. destruct dst as [|e dst]; [congruence|]. unfold unlimited in U. inversion U as [|? ? Ee _]. subst.
    assert (A1 : forall e, be_docs e = None -> exists e', be_docs e' = None /\ next_iter grow iy fuel (MkRun (MkQ [Some ra; Some rb] 0 2 0) (e :: dst) 0) = Ok (MkRun (MkQ [Some rc; Some rd] 0 2 0) (e' :: dst) 0, Again)).
    { intros x Ex. eexists. split; [|unfold next_iter; cbn [r_q r_dst r_n nth_error q_states q_i q_n N.to_nat]; unfold fill_blot; rewrite Ey; cbn [nth_error];
      rewrite Ex; cbn [is_nil negb]; rewrite (fill_none _ _ _ _ Hf Ea3); cbn [bind q_states q_i q_n q_nil upd];
      unfold advance; cbn [rs_at rs_total]; rewrite Ea1, Ea2, Ey; change (N.of_nat 0 =? 65535) with false; change (3 <=? 1) with false;
      cbn [nth_error bind q_states q_i q_n q_nil upd Nat.add]; fold rc; unfold set_max; cbn [q_states q_i q_n q_nil set_max_loop]; rewrite Ec2, Eb;
      change (0 <? 0) with false; change (0 <? 2) with true; cbv iota; cbn [docs_len be_docs Nat.leb N.add];
      change (N.to_nat (0 + 1)) with 1%nat; change (N.to_nat 1) with 1%nat; cbn [nth_error bind upd q_states q_i q_n q_nil]; fold rd; cbn [set_max_loop]; rewrite ?Ec2, ?Ed2; reflexivity]. reflexivity. }
    assert (A2 : forall e, be_docs e = None -> exists e', be_docs e' = None /\ next_iter grow iy fuel (MkRun (MkQ [Some rc; Some rd] 0 2 0) (e :: dst) 0) = Ok (MkRun (MkQ [None; Some rd] 0 2 0) (e' :: dst) 0, Again)).
    { intros x Ex. eexists. split; [|unfold next_iter; cbn [r_q r_dst r_n nth_error q_states q_i q_n N.to_nat]; unfold fill_blot; rewrite Ey; cbn [nth_error];
      rewrite Ex; cbn [is_nil negb]; rewrite (fill_none _ _ _ _ Hf Ec3); cbn [bind q_states q_i q_n q_nil upd];
      unfold advance; cbn [rs_at rs_total]; rewrite Ec1, Ec2; change (N.of_nat 1 =? 65535) with false; change (0 <=? 1) with true; cbv iota;
      cbn [bind q_states q_i q_n q_nil upd]; unfold set_max; cbn [q_states q_i q_n q_nil set_max_loop]; rewrite Ed2; change (0 <? 0) with false; cbv iota;
      cbn [docs_len be_docs Nat.leb N.to_nat bind upd q_states q_i q_n q_nil set_max_loop be_blot]; rewrite Ed2; reflexivity]. reflexivity. }
    assert (A3 : forall e, next_iter grow iy fuel (MkRun (MkQ [None; Some rd] 0 2 0) (e :: dst) 0) = Ok (MkRun (MkQ [None; Some rd] 1 2 1) (e :: dst) 0, Again)) by reflexivity.
    assert (A4 : forall e, be_docs e = None -> exists e', be_docs e' = None /\ next_iter grow iy fuel (MkRun (MkQ [None; Some rd] 1 2 1) (e :: dst) 0) = Ok (MkRun (MkQ [None; None] 0 2 1) (e' :: dst) 0, Again)).
    { intros x Ex. eexists. split; [|unfold next_iter; cbn [r_q r_dst r_n q_states q_i q_n]; change (N.to_nat 1) with 1%nat; cbn [nth_error]; unfold fill_blot; rewrite Ey; cbn [nth_error];
      rewrite Ex; cbn [is_nil negb]; rewrite (fill_none _ _ _ _ Hf Ed3); cbn [bind q_states q_i q_n q_nil upd];
      unfold advance; cbn [rs_at rs_total]; rewrite Ed1, Ed2; change (N.of_nat 1 =? 65535) with false; change (0 <=? 1) with true; cbv iota;
      cbn [bind q_states q_i q_n q_nil upd]; unfold set_max; cbn [q_states q_i q_n q_nil set_max_loop];
      cbn [docs_len be_docs Nat.leb N.to_nat bind upd q_states q_i q_n q_nil set_max_loop be_blot]; reflexivity]. reflexivity. }
    assert (A5 : forall e, next_iter grow iy fuel (MkRun (MkQ [None; None] 0 2 1) (e :: dst) 0) = Ok (MkRun (MkQ [None; None] 0 2 2) (e :: dst) 0, ReturnEOF)) by reflexivity.
    fold iy. destruct (A1 e Ee) as (e1 & E1 & D1). destruct (A2 e1 E1) as (e2 & E2 & D2). destruct (A4 e2 E2) as (e4 & E4 & D4).
    rewrite St. eexists. unfold query_next. cbn [next_loop]. rewrite D1. cbn [bind]. rewrite D2. cbn [bind]. rewrite A3. cbn [bind]. rewrite D4. cbn [bind]. rewrite A5. cbn [bind]. reflexivity.
  Qed.
  Theorem list_gone : (forall dst, unlimited dst -> dst <> [] -> exists r, query_next grow (without_list ix b0) fuel 5 (start_query (without_list ix b0)) dst = Ok (r, true)) /\
    forall out, listing grow (without_list ix b0) fuel unlimited (start_query (without_list ix b0)) out -> out = [].
  Proof.
    split; [exact nothing_told|]. intros out L. remember (start_query (without_list ix b0)) as q eqn:Eq.
    induction L as [q dst k r U E|q dst k r out U E L IH]; [reflexivity|]. destruct dst as [|e dst].
    - destruct k as [|k]; [discriminate|]. unfold query_next in E. cbn [next_loop] in E. unfold next_iter in E. cbn [r_dst r_n nth_error bind] in E.
      assert (r = MkRun q [] 0) as -> by congruence. cbn [r_n r_dst r_q firstn app] in *. auto.
    - destruct (nothing_told (e :: dst) U ltac:(discriminate)) as (r' & E'). rewrite <- Eq in E'. pose proof (next_loop_det _ _ _ _ _ _ _ _ E E'). congruence.
  Qed.
End W.
