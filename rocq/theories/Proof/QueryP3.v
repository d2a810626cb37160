(** Query.Next with entries that may fill up. *)
From Coq Require Import Permutation.
From Verif Require Import Model.Base Model.Address Model.Post Model.Poster Model.Shard Model.Dmd Model.Fnames Model.Config Model.Index Model.Query.
From Verif Require Import Spec.Reading Spec.Querying Proof.Tactics Proof.AddressP Proof.QueryP Proof.QueryP2.
Local Open Scope N_scope.

Section L.
  Variable grow : nat -> nat.
  Variables (ix : index) (place : N -> bytes * N * N).
  Lemma fill_loop_lim f : forall ids fuel ps n back, reads f ps ids -> (forall d, In d ids -> docid2doc ix d = Ok (place d)) ->
    (n <= length back)%nat -> (length ids < fuel)%nat ->
    exists ps', fill_loop grow ix fuel true f ps (Some (n, back)) =
      Ok (Some ((n + length (firstn (length back - n) ids))%nat, store n (map place (firstn (length back - n) ids)) back), ps',
          (length ids <? length back - n)%nat) /\ reads f ps' (skipn (length back - n) ids).
  Proof.
    induction ids as [|d ids IH]; intros [|fuel] ps n back R Pl W L; cbn [length] in L; try lia; cbn [fill_loop reads map] in *.
    - cbn [docs_len docs_cap andb]. rewrite R, firstn_nil, skipn_nil. cbn [length map store reads]. rewrite Nat.add_0_r.
      exists ps. split; [|exact R]. destruct (Nat.ltb_spec n (length back)) as [A|A]; cbn [negb].
      + destruct (Nat.ltb_spec 0 (length back - n)); [reflexivity|lia].
      + destruct (Nat.ltb_spec 0 (length back - n)); [lia|reflexivity].
    - cbn [docs_len docs_cap andb]. destruct (Nat.ltb_spec n (length back)) as [A|A]; cbn [negb].
      + destruct R as (ps' & E & R). rewrite E, (Pl d) by (left; reflexivity). cbn [bind].
        destruct (place d) as [[p s] e] eqn:Ep. rewrite put_doc_lim by lia. cbn [bind].
        destruct (IH fuel ps' (S n) (upd n (MkDoc p s e (d_dat (nth n back zero_doc))) back) R) as (ps2 & E2 & R2);
          [intros x Hx; apply Pl; right; exact Hx|rewrite upd_length; lia|lia|].
        exists ps2. rewrite E2. rewrite upd_length in *. replace (length back - n)%nat with (S (length back - S n)) by lia.
        cbn [firstn map store length skipn]. rewrite Ep. split; [|exact R2]. 
        replace (S (length ids) <? S (length back - S n))%nat with (length ids <? length back - S n)%nat by reflexivity.
        do 4 f_equal. f_equal. lia.
      + replace (length back - n)%nat with 0%nat by lia. cbn [firstn map store length skipn]. rewrite Nat.add_0_r. exists ps.
        split; [reflexivity|exact R].
  Qed.
End L.

Lemma perm_top counts perm b : perm_ok counts perm -> (b < num_slots)%nat -> 0 < nth b counts 0 ->
  (forall b', (b' < num_slots)%nat -> b' <> b -> nth b' counts 0 = 0) -> nth 0 perm 0%nat = b /\ (nth 1 perm 0%nat < num_slots)%nat /\ nth 1 perm 0%nat <> b.
Proof.
  intros [P S] Lb Hb Z. pose proof (Permutation_length P) as L. rewrite seq_length in L.
  assert (Rng : forall i, (i < num_slots)%nat -> (nth i perm 0 < num_slots)%nat).
  { intros i Hi. assert (X : In (nth i perm 0%nat) (seq 0 num_slots)) by (eapply Permutation_in; [exact P|apply nth_In; lia]). apply in_seq in X. lia. }
  assert (Nd : NoDup perm) by (eapply Permutation_NoDup; [symmetry; exact P|apply seq_NoDup]).
  assert (Hp : In b perm) by (eapply Permutation_in; [symmetry; exact P|apply in_seq; lia]).
  destruct (In_nth _ _ 0%nat Hp) as (j & Lj & Ej). rewrite L in Lj.
  assert (N2 : (2 <= num_slots)%nat) by (unfold num_slots; lia).
  assert (E0 : nth 0 perm 0%nat = b).
  { destruct (Nat.eq_dec (nth 0 perm 0%nat) b) as [E|Ne]; [exact E|]. pose proof (S 0%nat j ltac:(lia)) as X.
    rewrite Ej, (Z _ (Rng 0%nat ltac:(lia)) Ne) in X. lia. }
  split; [exact E0|]. split; [apply Rng; lia|]. intros E1. rewrite NoDup_nth with (d := 0%nat) in Nd.
  specialize (Nd 0%nat 1%nat ltac:(lia) ltac:(lia)). rewrite E0, E1 in Nd. specialize (Nd eq_refl). discriminate.
Qed.

(** Two shards, one slot with three documents and one with two: a query for entries with
    room for two never comes to the second. *)
Section W.
  Variable grow : nat -> nat.
  Variables (ix : index) (place : N -> bytes * N * N) (content : nat -> nat -> list N) (fuel : nat).
  Hypothesis I : index_ok ix 2 content place.
  Variables (b0 b1 : nat) (x1 x2 x3 y1 y2 : N).
  Hypothesis L0 : (b0 < num_slots)%nat.
  Hypothesis L1 : (b1 < num_slots)%nat.
  Hypothesis C0 : content 0 b0 = [x1; x2; x3].
  Hypothesis C1 : content 1 b1 = [y1; y2].
  Hypothesis Z0 : forall b, (b < num_slots)%nat -> b <> b0 -> content 0 b = [].
  Hypothesis Z1 : forall b, (b < num_slots)%nat -> b <> b1 -> content 1 b = [].
  Hypothesis Hf : (5 < fuel)%nat.

  Lemma shards2 : exists s0 s1, ix_shards ix = [s0; s1].
  Proof.
    pose proof (io_len _ _ _ _ I) as L. destruct (ix_shards ix) as [|s0 [|s1 [|? ?]]]; try discriminate. eauto.
  Qed.
  Lemma fill_empty fu f ps back : (0 < fu)%nat -> reads f ps [] -> length back = 2%nat -> fill_loop grow ix fu true f ps (Some (0%nat, back)) = Ok (Some (0%nat, back), ps, true).
  Proof using. intros Lf R L. destruct fu as [|k]; [exfalso; inversion Lf|]. cbn [fill_loop docs_len docs_cap andb]. rewrite L. cbn [Nat.ltb Nat.leb negb]. rewrite R. reflexivity. Qed.

  Lemma two_calls : exists blot q1, blot = u32 (u32 (N.of_nat b0) * 2 + 0) /\
    (forall dst, room_for_two dst -> exists r, query_next grow ix fuel 2 (start_query ix) dst = Ok (r, false) /\ r_q r = q1 /\ map be_blot (firstn (r_n r) (r_dst r)) = [blot]) /\
    (forall dst, room_for_two dst -> exists r, query_next grow ix fuel 6 q1 dst = Ok (r, true)).
  Proof.
    destruct shards2 as (s0 & s1 & Es).
    pose proof (io_perm _ _ _ _ I 0%nat s0) as P0. pose proof (io_perm _ _ _ _ I 1%nat s1) as P1. 
    pose proof (io_reads _ _ _ _ I 0%nat s0) as R0. pose proof (io_reads _ _ _ _ I 1%nat s1) as R1. rewrite Es in *.
    specialize (P0 eq_refl). specialize (P1 eq_refl). specialize (R0 eq_refl). specialize (R1 eq_refl).
    destruct (perm_top _ _ b0 P0 L0) as (T0 & B0 & N0).
    { destruct (R0 b0 L0) as [_ ->]. rewrite C0. reflexivity. }
    { intros b' Lb Nb. destruct (R0 b' Lb) as [_ ->]. rewrite Z0 by assumption. reflexivity. }
    destruct (perm_top _ _ b1 P1 L1) as (T1 & B1 & N1).
    { destruct (R1 b1 L1) as [_ ->]. rewrite C1. reflexivity. }
    { intros b' Lb Nb. destruct (R1 b' Lb) as [_ ->]. rewrite Z1 by assumption. reflexivity. }
    assert (PL : forall d, In d [x1; x2; x3] -> docid2doc ix d = Ok (place d)) by (intros d Hd; apply (io_place _ _ _ _ I 0%nat b0); auto; rewrite C0; exact Hd).
    destruct (R0 b0 L0) as [Rd0 Ct0]. rewrite C0 in Rd0, Ct0. destruct (R1 b1 L1) as [Rd1 Ct1]. rewrite C1 in Rd1, Ct1.
    destruct (R0 _ B0) as [Re0 Ce0]. rewrite (Z0 _ B0 N0) in Re0, Ce0. destruct (R1 _ B1) as [Re1 Ce1]. rewrite (Z1 _ B1 N1) in Re1, Ce1.
    change (nlen [x1; x2; x3]) with 3 in Ct0. change (nlen [y1; y2]) with 2 in Ct1. change (nlen (@nil N)) with 0 in Ce0, Ce1.
    set (ra := read_state_at s0 0). set (rb := read_state_at s1 0). set (rc := read_state_at s0 1). set (rd := read_state_at s1 1).
    assert (Ea : ra = MkReadState b0 0 3 (new_posts (nth b0 (si_heads s0) (-1)%Z))).
    { unfold ra, read_state_at, read_state_for_blot_at. rewrite T0, Ct0. reflexivity. }
    assert (Eb : rs_total rb = 2).
    { unfold rb, read_state_at, read_state_for_blot_at. rewrite T1. exact Ct1. }
    assert (Ec : rs_at rc = 1%nat /\ rs_total rc = 0 /\ reads (si_file s0) (rs_posts rc) []).
    { unfold rc, read_state_at, read_state_for_blot_at. cbn [rs_at rs_total rs_posts]. auto. }
    assert (Ed : rs_at rd = 1%nat /\ rs_total rd = 0 /\ reads (si_file s1) (rs_posts rd) []).
    { unfold rd, read_state_at, read_state_for_blot_at. cbn [rs_at rs_total rs_posts]. auto. }
    destruct Ec as (Ec1 & Ec2 & Ec3), Ed as (Ed1 & Ed2 & Ed3).
    assert (St : start_query ix = MkQ [Some ra; Some rb] 0 2 0).
    { unfold start_query, set_max. rewrite Es. cbn [map q_states q_n q_nil set_max_loop]. fold ra rb. rewrite Ea, Eb. reflexivity. }
    assert (Ps : exists ps1, posts_next (new_posts (nth b0 (si_heads s0) (-1)%Z)) (si_file s0) = Ok (x1, ps1) /\
      exists ps2, posts_next ps1 (si_file s0) = Ok (x2, ps2) /\ exists ps3, posts_next ps2 (si_file s0) = Ok (x3, ps3) /\ posts_next ps3 (si_file s0) = Err EOF).
    { cbn [reads] in Rd0. exact Rd0. }
    destruct Ps as (ps1 & N1' & ps2 & N2' & ps3 & N3' & N4').
    assert (PL1 : docid2doc ix x1 = Ok (place x1)) by (apply PL; cbn; auto).
    assert (PL2 : docid2doc ix x2 = Ok (place x2)) by (apply PL; cbn; auto).
    assert (PL3 : docid2doc ix x3 = Ok (place x3)) by (apply PL; cbn; auto).
    destruct fuel as [|[|[|[|k]]]] eqn:Ef; try lia.
    destruct (place x1) as [[p1 a1] e1], (place x2) as [[p2 a2] e2], (place x3) as [[p3 a3] e3].
    set (q1 := MkQ [Some (MkReadState b0 0 3 ps2); Some rb] 0 2 0). set (bl := u32 (u32 (N.of_nat b0) * 2 + 0)).
    assert (A1 : forall e z1 z2, exists z1' z2', next_iter grow ix (S (S (S (S k)))) (MkRun (start_query ix) [MkEntry e (Some (0%nat, [z1; z2]))] 0) =
      Ok (MkRun q1 [MkEntry bl (Some (2%nat, [z1'; z2']))] 1, Again)).
    { intros e z1 z2. eexists _, _. rewrite St. unfold next_iter. cbn [r_q r_dst r_n nth_error q_states q_i q_n N.to_nat]. 
      unfold fill_blot. rewrite Es, fill_blot_id_u32. cbn [nth_error]. rewrite Ea. cbn [rs_posts rs_blot rs_at rs_total be_docs is_nil negb].
      cbn [fill_loop docs_len docs_cap length andb Nat.ltb Nat.leb negb]. rewrite N1', PL1. cbn [bind].
      cbn [bind put_doc nth_error upd].
      cbn [fill_loop docs_len docs_cap length andb Nat.ltb Nat.leb negb]. rewrite N2', PL2. cbn [bind].
      cbn [bind put_doc nth_error upd].
      cbn [fill_loop docs_len docs_cap length andb Nat.ltb Nat.leb negb bind be_docs upd r_dst r_n nth_error be_blot q_i q_n q_states]. reflexivity. }
    assert (A2 : forall e z1 z2, exists e' z1', next_iter grow ix (S (S (S (S k)))) (MkRun q1 [MkEntry e (Some (0%nat, [z1; z2]))] 0) =
      Ok (MkRun (MkQ [Some rc; Some rd] 0 2 0) [MkEntry e' (Some (0%nat, [z1'; z2]))] 0, Again)).
    { intros e z1 z2. eexists _, _. unfold next_iter, q1. cbn [r_q r_dst r_n nth_error q_states q_i q_n N.to_nat].
      unfold fill_blot at 1. rewrite Es. cbn [nth_error]. cbn [rs_posts rs_blot rs_at rs_total be_docs is_nil negb].
      cbn [fill_loop docs_len docs_cap length andb Nat.ltb Nat.leb negb]. rewrite N3', PL3. cbn [bind].
      cbn [bind put_doc nth_error upd].
      cbn [fill_loop docs_len docs_cap length andb Nat.ltb Nat.leb negb]. rewrite N4'. cbn [bind q_states q_i q_n q_nil upd].
      unfold advance. rewrite Es. cbn [rs_at rs_total Nat.add]. change (N.of_nat 0 =? 65535) with false. change (3 <=? 1) with false.
      cbn [nth_error bind q_states q_i q_n q_nil upd]. fold rc. unfold set_max. cbn [q_states q_i q_n q_nil set_max_loop]. rewrite Ec2, Eb.
      change (0 <? 0) with false. change (0 <? 2) with true. cbv iota. cbn [docs_len be_docs Nat.leb N.add N.to_nat].
      change (N.to_nat (0 + 1)) with 1%nat. cbn [nth_error bind upd q_states q_i q_n q_nil]. fold rd. cbn [set_max_loop]. rewrite ?Ec2, ?Ed2. reflexivity. }
    assert (A3 : forall e z1 z2, exists e', next_iter grow ix (S (S (S (S k)))) (MkRun (MkQ [Some rc; Some rd] 0 2 0) [MkEntry e (Some (0%nat, [z1; z2]))] 0) =
      Ok (MkRun (MkQ [None; Some rd] 0 2 0) [MkEntry e' (Some (0%nat, [z1; z2]))] 0, Again)).
    { intros e z1 z2. eexists. unfold next_iter. cbn [r_q r_dst r_n nth_error q_states q_i q_n N.to_nat].
      unfold fill_blot. rewrite Es. cbn [nth_error be_docs is_nil negb]. rewrite (fill_empty _ _ (rs_posts rc) [z1; z2] (Nat.lt_0_succ _) Ec3 eq_refl). cbn [bind q_states q_i q_n q_nil upd].
      unfold advance. cbn [rs_at rs_total]. rewrite Ec1, Ec2. change (N.of_nat 1 =? 65535) with false. change (0 <=? 1) with true. cbv iota.
      cbn [bind q_states q_i q_n q_nil upd]. unfold set_max. cbn [q_states q_i q_n q_nil set_max_loop]. rewrite Ed2. change (0 <? 0) with false. cbv iota.
      cbn [docs_len be_docs Nat.leb N.to_nat bind upd q_states q_i q_n q_nil set_max_loop be_blot]. rewrite Ed2. reflexivity. }
    assert (A4 : forall e z1 z2, next_iter grow ix (S (S (S (S k)))) (MkRun (MkQ [None; Some rd] 0 2 0) [MkEntry e (Some (0%nat, [z1; z2]))] 0) =
      Ok (MkRun (MkQ [None; Some rd] 1 2 1) [MkEntry e (Some (0%nat, [z1; z2]))] 0, Again)) by reflexivity.
    assert (A5 : forall e z1 z2, exists e', next_iter grow ix (S (S (S (S k)))) (MkRun (MkQ [None; Some rd] 1 2 1) [MkEntry e (Some (0%nat, [z1; z2]))] 0) =
      Ok (MkRun (MkQ [None; None] 0 2 1) [MkEntry e' (Some (0%nat, [z1; z2]))] 0, Again)).
    { intros e z1 z2. eexists. unfold next_iter. cbn [r_q r_dst r_n q_states q_i q_n]. change (N.to_nat 1) with 1%nat. cbn [nth_error].
      unfold fill_blot. rewrite Es. cbn [nth_error be_docs is_nil negb]. rewrite (fill_empty _ _ (rs_posts rd) [z1; z2] (Nat.lt_0_succ _) Ed3 eq_refl). cbn [bind q_states q_i q_n q_nil upd].
      unfold advance. cbn [rs_at rs_total]. rewrite Ed1, Ed2. change (N.of_nat 1 =? 65535) with false. change (0 <=? 1) with true. cbv iota.
      cbn [bind q_states q_i q_n q_nil upd]. unfold set_max. cbn [q_states q_i q_n q_nil set_max_loop]. 
      cbn [docs_len be_docs Nat.leb N.to_nat bind upd q_states q_i q_n q_nil set_max_loop be_blot]. reflexivity. }
    assert (A6 : forall e z1 z2, next_iter grow ix (S (S (S (S k)))) (MkRun (MkQ [None; None] 0 2 1) [MkEntry e (Some (0%nat, [z1; z2]))] 0) =
      Ok (MkRun (MkQ [None; None] 0 2 2) [MkEntry e (Some (0%nat, [z1; z2]))] 0, ReturnEOF)) by reflexivity.
    exists bl, q1. split; [reflexivity|]. split.
    - intros dst (e & back & -> & Lb). destruct back as [|z1 [|z2 [|? ?]]]; try discriminate.
      destruct (A1 e z1 z2) as (z1' & z2' & B). eexists. split; [|split].
      + unfold query_next. cbn [next_loop]. rewrite B. cbn [bind]. unfold next_iter at 1. cbn [r_dst r_n nth_error bind]. reflexivity.
      + reflexivity.
      + reflexivity.
    - intros dst (e & back & -> & Lb). destruct back as [|z1 [|z2 [|? ?]]]; try discriminate.
      destruct (A2 e z1 z2) as (f2 & z1' & D2). destruct (A3 f2 z1' z2) as (f3 & D3). destruct (A5 f3 z1' z2) as (f5 & D5).
      eexists. unfold query_next. cbn [next_loop]. rewrite D2. cbn [bind]. rewrite D3. cbn [bind]. rewrite A4. cbn [bind]. rewrite D5. cbn [bind]. rewrite A6. cbn [bind]. reflexivity.
  Qed.
  Theorem second_missed : (exists out, listing grow ix fuel room_for_two (start_query ix) out) /\
    forall out, listing grow ix fuel room_for_two (start_query ix) out -> map be_blot out = [N.of_nat b0 * 2].
  Proof.
    destruct two_calls as (blot & q1 & Eb & X1 & X2).
    assert (Eb' : blot = N.of_nat b0 * 2).
    { rewrite Eb. unfold u32. unfold num_slots in L0. rewrite !N.mod_small by lia. lia. }
    split.
    - assert (R : room_for_two [MkEntry 0 (Some (0%nat, [zero_doc; zero_doc]))]) by (eexists _, _; split; reflexivity).
      destruct (X1 _ R) as (r & E & Eq & _). destruct (X2 _ R) as (r2 & E2). eexists. eapply listing_more; [exact R|exact E|].
      rewrite Eq. eapply listing_end; [exact R|exact E2].
    - intros out L. inversion L as [q dst k r R E|q dst k r out' R E L']; subst.
      + destruct (X1 _ R) as (r1 & E1 & _). pose proof (next_loop_det _ _ _ _ _ _ _ _ E E1). discriminate.
      + destruct (X1 _ R) as (r1 & E1 & Eq & Em). pose proof (next_loop_det _ _ _ _ _ _ _ _ E E1) as Er. assert (r = r1) as -> by congruence.
        rewrite map_app, Em. rewrite Eq in L'. inversion L' as [q' dst' k' r' R' E'|q' dst' k' r' out2 R' E' L2]; subst; [cbn; congruence|].
        destruct (X2 _ R') as (r2 & E2). pose proof (next_loop_det _ _ _ _ _ _ _ _ E' E2). discriminate.
  Qed.
End W.
