(** An index on which a query for entries with room for three documents returns the same
    documents twice. *)
From Coq Require Import String Permutation.
From Verif Require Import Model.Base Model.Utf8 Model.Token Model.Blotter Model.Post Model.Poster Model.Shatter Model.Shard Model.Dmd Model.Fnames Model.Conc Model.Config Model.Run Model.Index Model.Query Model.Session.
From Verif Require Import Spec.Text Spec.Fingerprint Spec.Configs Spec.Posting Spec.Postings Spec.Paths Spec.Reading Spec.Querying Spec.History Spec.Str Spec.Limited.
From Verif Require Import Proof.Tactics Proof.TokenP Proof.BlotterP Proof.BlotsP Proof.QueryP Proof.QueryP2 Proof.QueryP3 Proof.SessionP Proof.SessionP2 Proof.QueryW Proof.LimitP Proof.LimitP2.
Local Open Scope N_scope.
Local Open Scope list_scope.

(** The first places of the order of the slots, when their counts differ. *)
Lemma perm_first3 counts perm a b c : perm_ok counts perm -> (a < num_slots)%nat -> (b < num_slots)%nat -> (c < num_slots)%nat ->
  a <> b -> a <> c -> b <> c -> nth b counts 0 < nth a counts 0 -> nth c counts 0 < nth b counts 0 ->
  (forall x, (x < num_slots)%nat -> x <> a -> x <> b -> x <> c -> nth x counts 0 < nth c counts 0) ->
  nth 0 perm 0%nat = a /\ nth 1 perm 0%nat = b /\ nth 2 perm 0%nat = c.
Proof.
  intros [P So] La Lb Lc Nab Nac Nbc Cab Cbc Ot.
  assert (Lp : List.length perm = num_slots) by (rewrite (Permutation_length P); apply seq_length).
  assert (ND : NoDup perm) by (eapply Permutation_NoDup; [symmetry; exact P|apply seq_NoDup]).
  assert (Rg : forall i, (i < num_slots)%nat -> (nth i perm 0 < num_slots)%nat).
  { intros i Li. assert (In (nth i perm 0%nat) (seq 0 num_slots)) as X by (eapply Permutation_in; [exact P|apply nth_In; rewrite Lp; exact Li]). apply in_seq in X. exact (proj2 X). }
  assert (At : forall x, (x < num_slots)%nat -> exists i, (i < num_slots)%nat /\ nth i perm 0%nat = x).
  { intros x Lx. assert (In x perm) as X by (eapply Permutation_in; [symmetry; exact P|apply in_seq; cbn [Nat.add]; split; [apply Nat.le_0_l|exact Lx]]).
    destruct (In_nth _ _ 0%nat X) as (i & Li & E). rewrite Lp in Li. eauto. }
  assert (Inj : forall i j, (i < num_slots)%nat -> (j < num_slots)%nat -> nth i perm 0%nat = nth j perm 0%nat -> i = j).
  { intros i j Li Lj E. rewrite NoDup_nth with (d := 0%nat) in ND. apply (ND i j); rewrite ?Lp; assumption. }
  assert (N3 : (2 < num_slots)%nat) by (unfold num_slots; lia).
  destruct (At a La) as (i & Li & Ei), (At b Lb) as (j & Lj & Ej), (At c Lc) as (l & Ll & El).
  assert (Cnt : forall x, (x < num_slots)%nat -> x <> a -> nth x counts 0 < nth a counts 0).
  { intros x Lx Nx. destruct (Nat.eq_dec x b) as [->|Nb]; [exact Cab|]. destruct (Nat.eq_dec x c) as [->|Nc]; [lia|]. specialize (Ot x Lx Nx Nb Nc). lia. }
  assert (Cnt2 : forall x, (x < num_slots)%nat -> x <> a -> x <> b -> nth x counts 0 < nth b counts 0).
  { intros x Lx Nx Nb. destruct (Nat.eq_dec x c) as [->|Nc]; [exact Cbc|]. specialize (Ot x Lx Nx Nb Nc). lia. }
  revert Li Lj Ll So Rg Inj Cnt Cnt2 Ot N3. generalize num_slots. intros z Li Lj Ll So Rg Inj Cnt Cnt2 Ot N3.
  assert (i = 0%nat) as ->.
  { destruct (Nat.eq_dec i 0) as [|Ni]; [assumption|exfalso]. specialize (So 0%nat i ltac:(lia)). rewrite Ei in So.
    assert (nth 0 perm 0%nat <> a) as Na. { intros X. rewrite <- Ei in X. apply Inj in X; lia. }
    specialize (Cnt _ (Rg 0%nat ltac:(lia)) Na). lia. }
  assert (j = 1%nat) as ->.
  { destruct (Nat.eq_dec j 1) as [|Nj]; [assumption|exfalso]. destruct (Nat.eq_dec j 0) as [->|Nj0]; [congruence|]. specialize (So 1%nat j ltac:(lia)). rewrite Ej in So.
    assert (nth 1 perm 0%nat <> a) as Na. { intros X. rewrite <- Ei in X. apply Inj in X; lia. }
    assert (nth 1 perm 0%nat <> b) as Nb. { intros X. rewrite <- Ej in X. apply Inj in X; lia. }
    specialize (Cnt2 _ (Rg 1%nat ltac:(lia)) Na Nb). lia. }
  assert (l = 2%nat) as ->.
  { destruct (Nat.eq_dec l 2) as [|Nl]; [assumption|exfalso]. destruct (Nat.eq_dec l 0) as [->|Nl0]; [congruence|]. destruct (Nat.eq_dec l 1) as [->|Nl1]; [congruence|].
    specialize (So 2%nat l ltac:(lia)). rewrite El in So.
    assert (nth 2 perm 0%nat <> a) as Na. { intros X. rewrite <- Ei in X. apply Inj in X; lia. }
    assert (nth 2 perm 0%nat <> b) as Nb. { intros X. rewrite <- Ej in X. apply Inj in X; lia. }
    assert (nth 2 perm 0%nat <> c) as Nc. { intros X. rewrite <- El in X. apply Inj in X; lia. }
    specialize (Ot _ (Rg 2%nat ltac:(lia)) Na Nb Nc). lia. }
  auto.
Qed.

Section R.
  Variable grow : nat -> nat.
  Variables (ix : index) (place : N -> bytes * N * N) (content : nat -> nat -> list N) (fuel : nat).
  Hypothesis I : index_ok ix 2 content place.
  Hypothesis Hf : forall s b, (s < 2)%nat -> (b < num_slots)%nat -> (List.length (content s b) < fuel)%nat.
  Variables (bd ba bb bc : nat).
  Hypothesis Ld : (bd < num_slots)%nat.
  Hypothesis La : (ba < num_slots)%nat.
  Hypothesis Lb : (bb < num_slots)%nat.
  Hypothesis Lc : (bc < num_slots)%nat.
  Hypothesis Nab : ba <> bb.
  Hypothesis Nac : ba <> bc.
  Hypothesis Nbc : bb <> bc.
  Variables (x1 x2 x3 y1 y2 y3 y4 y5 y6 z1 z2 z3 z4 z5 w1 : N).
  Hypothesis Cd : content 0 bd = [x1; x2; x3].
  Hypothesis Ca : content 1 ba = [y1; y2; y3; y4; y5; y6].
  Hypothesis Cb : content 1 bb = [z1; z2; z3; z4; z5].
  Hypothesis Cc : content 1 bc = [w1].
  Hypothesis Z0 : forall b, (b < num_slots)%nat -> b <> bd -> content 0 b = [].
  Hypothesis Z1 : forall b, (b < num_slots)%nat -> b <> ba -> b <> bb -> b <> bc -> content 1 b = [].
  Notation held s p := (held_at ix content s p).
  Notation QL := (QL ix 2 content).

  Lemma places : held 0 0 = [x1; x2; x3] /\ held 0 1 = [] /\ held 1 0 = [y1; y2; y3; y4; y5; y6] /\ held 1 1 = [z1; z2; z3; z4; z5] /\ held 1 2 = [w1] /\ slot ix 1 1 = bb.
  Proof.
    destruct (permof_spec grow ix place 2 content I fuel Hf 0 ltac:(lia)) as (s0 & E0 & P0 & _). destruct (permof_spec grow ix place 2 content I fuel Hf 1 ltac:(lia)) as (s1 & E1 & P1 & _).
    pose proof (io_perm _ _ _ _ I 0%nat s0 E0) as K0. pose proof (io_perm _ _ _ _ I 1%nat s1 E1) as K1.
    pose proof (io_reads _ _ _ _ I 0%nat s0 E0) as R0. pose proof (io_reads _ _ _ _ I 1%nat s1 E1) as R1.
    destruct (perm_top _ _ bd K0 Ld) as (T0 & B0 & N0).
    { rewrite (proj2 (R0 bd Ld)), Cd. reflexivity. }
    { intros b' Lb' Nb'. rewrite (proj2 (R0 b' Lb')), Z0 by assumption. reflexivity. }
    destruct (perm_first3 _ _ ba bb bc K1 La Lb Lc Nab Nac Nbc) as (T1 & T2 & T3).
    { rewrite (proj2 (R1 ba La)), (proj2 (R1 bb Lb)), Ca, Cb. reflexivity. }
    { rewrite (proj2 (R1 bc Lc)), (proj2 (R1 bb Lb)), Cc, Cb. reflexivity. }
    { intros b' Lb' A B C. rewrite (proj2 (R1 bc Lc)), (proj2 (R1 b' Lb')), Cc, Z1 by assumption. reflexivity. }
    unfold held_at, slot. rewrite P0, P1, T0, T1, T2, T3. split; [exact Cd|]. split; [apply Z0; assumption|]. auto.
  Qed.
  (** setMax with two states. *)
  Lemma which q h a0 l0 a1 l1 : QL q h -> q = set_max q -> h 0%nat = Some (a0, l0) -> h 1%nat = Some (a1, l1) ->
    N.to_nat (q_i q) = if (List.length (held 0 a0) <? List.length (held 1 a1))%nat then 1%nat else 0%nat.
  Proof.
    intros Q M H0 H1. rewrite M. unfold set_max. cbn [q_i]. pose proof (ql_len _ _ _ _ _ Q) as Ln.
    destruct (ql_st _ _ _ _ _ Q 0%nat ltac:(lia)) as (o0 & E0 & R0). destruct (ql_st _ _ _ _ _ Q 1%nat ltac:(lia)) as (o1 & E1 & R1).
    destruct (q_states q) as [|t0 [|t1 [|? ?]]]; try discriminate. cbn [nth_error] in *. inv E0. inv E1. rewrite H0 in R0. rewrite H1 in R1.
    destruct o0 as [s0|]; [|destruct R0]. destruct o1 as [s1|]; [|destruct R1]. destruct R0 as (_ & _ & _ & T0 & _). destruct R1 as (_ & _ & _ & T1 & _).
    cbn [set_max_loop]. rewrite T0, T1. unfold nlen. 
    destruct (Nat.ltb_spec (List.length (held 0 a0)) (List.length (held 1 a1))) as [L|L];
    repeat match goal with |- context [?x <? ?y] => destruct (N.ltb_spec x y) end; try reflexivity; lia.
  Qed.

  Definition three (l : list (bytes * N * N)) (b : N) (e : blot_entry) : Prop := be_blot e = b /\ docs_keys (be_docs e) = l.
  Definition dst3 : list blot_entry := [MkEntry 0 (Some (0%nat, repeat zero_doc 3))].
  Lemma dst3_room : room_for 3 dst3.
  Proof. exists 0, (repeat zero_doc 3). auto. Qed.
  (** A call that reads from shard i and returns at once. *)
  Lemma hit_at_once q h i a suf e0 : QL q h -> N.to_nat (q_i q) = i -> h i = Some (a, suf) -> (2 <= List.length (firstn 3 suf))%nat -> fresh e0 -> room e0 = Some 3%nat ->
    exists k r e q1, next_loop grow ix fuel k (MkRun q [e0] 0) = Ok (r, false) /\ r_q r = q1 /\ firstn (r_n r) (r_dst r) = [e] /\
      be_blot e = blot_num 2 i (slot ix i a) /\ docs_keys (be_docs e) = map place (firstn 3 suf) /\
      QL q1 (gone ix content h i a (Some 3%nat) suf) /\ if (List.length suf <? 3)%nat then q1 = set_max q1 else q_i q1 = q_i q.
  Proof.
    intros Q Ei Hi Bg Fe Re. pose proof (iter_some grow ix place 2 content I fuel Hf (MkRun q [e0] 0) h e0 a suf Q eq_refl Fe) as X. cbv zeta in X. cbn [r_q r_n r_dst] in X.
    rewrite Ei, Re in X. destruct (X Hi) as (q1 & Q1 & _ & M1 & S1). cbn [part ended] in *. destruct (Nat.leb_spec (List.length (firstn 3 suf)) 1) as [Y|_]; [lia|].
    destruct S1 as (e & E & Eb & Ed). exists 2%nat, (MkRun q1 [e] 1), e, q1. split; [|auto 10].
    change (next_loop grow ix fuel 2 (MkRun q [e0] 0)) with (do! (r, v) <- next_iter grow ix fuel (MkRun q [e0] 0); match v with Again => next_loop grow ix fuel 1 r | Return => Ok (r, false) | ReturnEOF => Ok (r, true) end).
    rewrite E. cbn [bind upd next_loop]. unfold next_iter. cbn [r_dst r_n nth_error bind]. reflexivity.
  Qed.
  Lemma hit q h i a suf e0 : QL q h -> N.to_nat (q_i q) = i -> h i = Some (a, suf) -> (2 <= List.length (firstn 3 suf))%nat -> fresh e0 -> room e0 = Some 3%nat ->
    exists k r e h', next_loop grow ix fuel k (MkRun q [e0] 0) = Ok (r, false) /\ firstn (r_n r) (r_dst r) = [e] /\
      be_blot e = blot_num 2 i (slot ix i a) /\ docs_keys (be_docs e) = map place (firstn 3 suf) /\
      QL (r_q r) h' /\ h' i = (if (List.length suf <? 3)%nat then after ix content i a i else Some (a, skipn 3 suf)) /\ (forall s, s <> i -> h' s = h s) /\
      if (List.length suf <? 3)%nat then r_q r = set_max (r_q r) else N.to_nat (q_i (r_q r)) = i.
  Proof.
    intros Q Ei Hi Bg Fe Re. destruct (hit_at_once q h i a suf e0 Q Ei Hi Bg Fe Re) as (k & r & e & q1 & E & Er & Eo & Eb & Ed & Q1 & M). subst q1.
    exists k, r, e, (gone ix content h i a (Some 3%nat) suf). split; [exact E|]. split; [exact Eo|]. split; [exact Eb|]. split; [exact Ed|]. split; [exact Q1|].
    split; [unfold gone, hset; rewrite Nat.eqb_refl; reflexivity|]. split; [intros s Ns; unfold gone, hset; destruct (Nat.eqb_spec s i); [congruence|reflexivity]|].
    destruct (List.length suf <? 3)%nat; [exact M|]. rewrite M. exact Ei.
  Qed.
  Lemma skip q h i a suf e0 : QL q h -> N.to_nat (q_i q) = i -> h i = Some (a, suf) -> (List.length suf <= 1)%nat -> fresh e0 -> room e0 = Some 3%nat ->
    exists h1 q1 h2 q2 e, QL q1 h1 /\ q1 = set_max q1 /\ h1 i = after ix content i a i /\ (forall s, s <> i -> h1 s = h s) /\
      let j := N.to_nat (q_i q1) in QL q2 h2 /\ q2 = set_max q2 /\ h2 j = after ix content i a j /\ (forall s, s <> j -> h2 s = h1 s) /\
      fresh e /\ room e = Some 3%nat /\
      forall k x, next_loop grow ix fuel k (MkRun q2 [e] 0) = x -> next_loop grow ix fuel (S k) (MkRun q [e0] 0) = x.
  Proof.
    intros Q Ei Hi Sm Fe Re. pose proof (iter_some grow ix place 2 content I fuel Hf (MkRun q [e0] 0) h e0 a suf Q eq_refl Fe) as X. cbv zeta in X. cbn [r_q r_n r_dst] in X.
    rewrite Ei, Re in X. destruct (X Hi) as (q1 & Q1 & _ & M1 & S1). cbn [part ended] in *.
    assert (List.length (firstn 3 suf) <= 1)%nat as Y by (rewrite firstn_length; lia). destruct (Nat.leb_spec (List.length (firstn 3 suf)) 1) as [_|Z]; [|lia].
    assert (En : (List.length suf <? 3)%nat = true) by (apply Nat.ltb_lt; lia). rewrite En in M1.
    destruct S1 as (q2 & e & E & Q2 & _ & M2 & Fe' & Re').
    exists (gone ix content h i a (Some 3%nat) suf), q1, (hset (gone ix content h i a (Some 3%nat) suf) (N.to_nat (q_i q1)) (after ix content i a (N.to_nat (q_i q1)))), q2, e.
    split; [exact Q1|]. split; [exact M1|]. split; [unfold gone, hset; rewrite Nat.eqb_refl; cbn [ended]; rewrite En; reflexivity|].
    split; [intros s Ns; unfold gone, hset; destruct (Nat.eqb_spec s i); [congruence|reflexivity]|]. cbv zeta. split; [exact Q2|]. split; [exact M2|].
    split; [unfold hset; rewrite Nat.eqb_refl; reflexivity|]. split; [intros s Ns; unfold hset at 1; destruct (Nat.eqb_spec s (N.to_nat (q_i q1))); [congruence|reflexivity]|]. split; [exact Fe'|]. split; [exact Re'|].
    intros k x Hx. cbn [next_loop]. rewrite E. cbn [bind upd]. exact Hx.
  Qed.
  Lemma slots3 : (2 =? num_slots)%nat = false /\ (1 =? num_slots)%nat = false.
  Proof. unfold num_slots. split; apply Nat.eqb_neq; lia. Qed.

  Notation asked := (queried grow ix fuel (room_for 3)).
  Lemma asked_call q out k r : asked q out -> next_loop grow ix fuel k (MkRun q dst3 0) = Ok (r, false) -> asked (r_q r) (out ++ firstn (r_n r) (r_dst r)).
  Proof. intros Q E. eapply queried_next; [exact Q|exact dst3_room|exact E]. Qed.

  Theorem read_twice : exists q out, asked q out /\ repeats out.
  Proof.
    destruct places as (P00 & P01 & P10 & P11 & P12 & _). destruct slots3 as [F2 F1].
    set (e0 := MkEntry 0 (Some (0%nat, repeat zero_doc 3))). assert (Fe : fresh e0) by reflexivity. assert (Re : room e0 = Some 3%nat) by reflexivity. change dst3 with [e0] in *.
    pose proof (queried_start grow ix fuel (room_for 3)) as A0. pose proof (start_QL grow ix place 2 content I fuel Hf) as Q0. set (q0 := start_query ix) in *.
    assert (V0 : h0 ix content 0 = Some (0%nat, [x1; x2; x3])) by (unfold h0; rewrite P00; reflexivity).
    assert (W0 : h0 ix content 1 = Some (0%nat, [y1; y2; y3; y4; y5; y6])) by (unfold h0; rewrite P10; reflexivity).
    pose proof (which q0 _ _ _ _ _ Q0 eq_refl V0 W0) as I0. rewrite P00, P10 in I0. cbn [List.length Nat.ltb Nat.leb] in I0.
    destruct (hit q0 _ _ _ _ e0 Q0 I0 W0) as (k1 & r1 & e1 & h1 & E1 & O1 & _ & _ & Q1 & W1 & V1 & I1); [cbn; lia|exact Fe|exact Re|]. rewrite <- V1 in V0 by discriminate. clear V1.
    cbn [List.length Nat.ltb Nat.leb skipn] in W1, I1. pose proof (asked_call _ _ _ _ A0 E1) as A1. rewrite O1 in A1.
    destruct (hit _ _ _ _ _ e0 Q1 I1 W1) as (k2 & r2 & e2 & h2 & E2 & O2 & _ & _ & Q2 & W2 & V2 & I2); [cbn; lia|exact Fe|exact Re|]. rewrite <- V2 in V0 by discriminate. clear V2.
    cbn [List.length Nat.ltb Nat.leb skipn] in W2, I2. pose proof (asked_call _ _ _ _ A1 E2) as A2. rewrite O2 in A2.
    destruct (skip _ _ _ _ _ e0 Q2 I2 W2) as (h3 & q3 & h4 & q4 & e3 & Q3 & M3 & W3 & V3 & S3); [cbn; lia|exact Fe|exact Re|]. cbv zeta in S3. rewrite <- V3 in V0 by discriminate. clear V3.
    unfold after in W3. rewrite F1, P10 in W3. cbn [List.length Nat.leb] in W3. pose proof (which q3 _ _ _ _ _ Q3 M3 V0 W3) as I3. rewrite P00, P11 in I3. cbn [List.length Nat.ltb Nat.leb] in I3.
    rewrite I3 in S3. destruct S3 as (Q4 & M4 & W4 & V4 & Fe3 & Re3 & K3). rewrite <- V4 in V0 by discriminate. clear V4.
    unfold after in W4. rewrite F1, P10 in W4. cbn [List.length Nat.leb] in W4. rewrite P11 in W4. pose proof (which q4 _ _ _ _ _ Q4 M4 V0 W4) as I4. rewrite P00, P11 in I4. cbn [List.length Nat.ltb Nat.leb] in I4.
    destruct (hit _ _ _ _ _ e3 Q4 I4 W4) as (k5 & r5 & e5 & h5 & E5 & O5 & B5 & D5 & Q5 & W5 & V5 & I5); [cbn; lia|exact Fe3|exact Re3|]. rewrite <- V5 in V0 by discriminate. clear V5.
    cbn [List.length Nat.ltb Nat.leb skipn] in W5, I5. apply K3 in E5. pose proof (asked_call _ _ _ _ A2 E5) as A5. rewrite O5 in A5.
    destruct (hit _ _ _ _ _ e0 Q5 I5 W5) as (k6 & r6 & e6 & h6 & E6 & O6 & _ & _ & Q6 & W6 & V6 & I6); [cbn; lia|exact Fe|exact Re|]. rewrite <- V6 in V0 by discriminate. clear V6.
    cbn [List.length Nat.ltb Nat.leb skipn] in W6, I6. pose proof (asked_call _ _ _ _ A5 E6) as A6. rewrite O6 in A6.
    unfold after in W6. rewrite F2, P11 in W6. cbn [List.length Nat.leb] in W6. pose proof (which _ _ _ _ _ _ Q6 I6 V0 W6) as I6'. rewrite P00, P12 in I6'. cbn [List.length Nat.ltb Nat.leb] in I6'.
    destruct (hit _ _ _ _ _ e0 Q6 I6' V0) as (k7 & r7 & e7 & h7 & E7 & O7 & _ & _ & Q7 & V7 & W7 & I7); [cbn; lia|exact Fe|exact Re|]. rewrite <- W7 in W6 by discriminate. clear W7.
    cbn [List.length Nat.ltb Nat.leb skipn] in V7, I7. pose proof (asked_call _ _ _ _ A6 E7) as A7. rewrite O7 in A7.
    destruct (skip _ _ _ _ _ e0 Q7 I7 V7) as (h8 & q8 & h9 & q9 & e8 & Q8 & M8 & V8 & W8 & S8); [cbn; lia|exact Fe|exact Re|]. cbv zeta in S8. rewrite <- W8 in W6 by discriminate. clear W8.
    unfold after in V8. rewrite F1, P00 in V8. cbn [List.length Nat.leb] in V8. pose proof (which q8 _ _ _ _ _ Q8 M8 V8 W6) as I8. rewrite P01, P12 in I8. cbn [List.length Nat.ltb Nat.leb] in I8.
    rewrite I8 in S8. destruct S8 as (Q9 & M9 & W9 & V9 & Fe8 & Re8 & K8). rewrite <- V9 in V8 by discriminate. clear V9.
    unfold after in W9. rewrite F1, P00 in W9. cbn [List.length Nat.leb] in W9. rewrite P11 in W9. pose proof (which q9 _ _ _ _ _ Q9 M9 V8 W9) as I9. rewrite P01, P11 in I9. cbn [List.length Nat.ltb Nat.leb] in I9.
    destruct (hit _ _ _ _ _ e8 Q9 I9 W9) as (k10 & r10 & e10 & h10 & E10 & O10 & B10 & D10 & _); [cbn; lia|exact Fe8|exact Re8|].
    apply K8 in E10. pose proof (asked_call _ _ _ _ A7 E10) as A10. rewrite O10 in A10.
    eexists _, _. split; [exact A10|]. exists [e1; e2], e5, [e6; e7], e10, []. split; [reflexivity|]. split; [congruence|]. split; [congruence|]. rewrite D5. cbn. lia.
  Qed.
End R.

(** One session, fifteen documents: six, five and three times three texts, and one more. *)
Definition rp_text (c : string) : bytes := bs "x a b c d e f g h i " ++ bs c ++ bs ".".
Definition rp_words (c : string) : list bytes := [bs "x"; bs "a"; bs "b"; bs "c"; bs "d"; bs "e"; bs "f"; bs "g"; bs "h"; bs "i"; bs c].
Definition rp_docs : list (bytes * doc) :=
  map (fun n => wit_doc n (rp_text "j")) ["1"; "2"; "3"; "4"; "5"; "6"]%string ++
  map (fun n => wit_doc n (rp_text "l")) ["7"; "8"; "9"; "10"; "11"]%string ++
  [wit_doc "12" (rp_text "n")] ++ map (fun n => wit_doc n (rp_text "k")) ["13"; "14"; "15"]%string.
Definition rp_wss : list (list bytes) := Eval cbn in repeat (rp_words "j") 6 ++ repeat (rp_words "l") 5 ++ [rp_words "n"] ++ repeat (rp_words "k") 3.
Definition rp_a : N := Eval vm_compute in (xors (map fnv32 (tl (rp_words "j")))) mod 131072.
Definition rp_b : N := Eval vm_compute in (xors (map fnv32 (tl (rp_words "l")))) mod 131072.
Definition rp_c : N := Eval vm_compute in (xors (map fnv32 (tl (rp_words "n")))) mod 131072.
Definition rp_d : N := Eval vm_compute in (xors (map fnv32 (tl (rp_words "k")))) mod 131072.
Lemma rp_fit : docs_fit rp_docs.
Proof.
  constructor; [|vm_compute; reflexivity|vm_compute; reflexivity].
  unfold rp_docs. cbn [map app]. repeat (constructor; [split; [exists []; reflexivity|split; vm_compute; reflexivity]|]). constructor.
Qed.
Lemma rp_words_of u : words_of (word_char u) rp_docs rp_wss.
Proof.
  assert (X : forall s ws, forallb (fun c => c <? 128) s = true -> words (word_char u) (removelast s) = ws ->
    doc_words (word_char u) s ws).
  { intros s ws Hs E. left. exists s. split; [|symmetry; exact E]. apply ascii_text, Hs. }
  unfold rp_docs, rp_wss. cbn [map app]. repeat (constructor; [cbn [snd wit_doc d_dat]; apply X; vm_compute; reflexivity|]). constructor.
Qed.
Lemma has_only u ws b q : map (fun b => b mod (N.of_nat 2 * 65536)) (spec_blots (word_hash u) 1 10 ws) = [b] -> has_blot (word_hash u) 1 10 2 ws q = (b =? q).
Proof.
  intros E. unfold has_blot. destruct (spec_blots (word_hash u) 1 10 ws) as [|b' [|? ?]]; try discriminate. cbn [map existsb] in *.
  assert (b' mod (N.of_nat 2 * 65536) = b) as -> by congruence. apply orb_false_r.
Qed.
Lemma rp_carriers u q : carriers (word_hash u) 1 10 2 0 rp_wss q =
  if rp_a =? q then [1; 2; 3; 4; 5; 6] else if rp_b =? q then [7; 8; 9; 10; 11] else if rp_c =? q then [12] else if rp_d =? q then [13; 14; 15] else [].
Proof.
  assert (Ha : forall q, has_blot (word_hash u) 1 10 2 (rp_words "j") q = (rp_a =? q)) by (intros; apply has_only; vm_compute; reflexivity).
  assert (Hb : forall q, has_blot (word_hash u) 1 10 2 (rp_words "l") q = (rp_b =? q)) by (intros; apply has_only; vm_compute; reflexivity).
  assert (Hc : forall q, has_blot (word_hash u) 1 10 2 (rp_words "n") q = (rp_c =? q)) by (intros; apply has_only; vm_compute; reflexivity).
  assert (Hd : forall q, has_blot (word_hash u) 1 10 2 (rp_words "k") q = (rp_d =? q)) by (intros; apply has_only; vm_compute; reflexivity).
  change rp_wss with (repeat (rp_words "j") 6 ++ repeat (rp_words "l") 5 ++ [rp_words "n"] ++ repeat (rp_words "k") 3). cbn [repeat app carriers]. rewrite !Ha, !Hb, !Hc, !Hd.
  destruct (N.eqb_spec rp_a q) as [<-|_]; [reflexivity|]. destruct (N.eqb_spec rp_b q) as [<-|_]; [reflexivity|]. destruct (N.eqb_spec rp_c q) as [<-|_]; [reflexivity|].
  destruct (N.eqb_spec rp_d q) as [<-|_]; reflexivity.
Qed.
Lemma rp_half x r : x < 131072 -> x mod 2 = r -> (N.to_nat (x / 2) < num_slots)%nat /\ N.of_nat (N.to_nat (x / 2)) * 2 + r = x.
Proof.
  intros L E. pose proof (N.div_mod x 2 ltac:(lia)) as X. rewrite E in X. rewrite N2Nat.id. split; [|lia].
  assert (x / 2 < 65536) by (apply N.div_lt_upper_bound; lia). unfold num_slots. lia.
Qed.

Theorem limited_query_repeats : exists c docs,
  default_config (bs "/") (bs "x") = Ok c /\ cfg_full c 1 10 2 /\ docs_fit docs /\
  forall u sorted grow fuel, sorts sorted -> (15 < fuel)%nat ->
    (exists dk, history u c [docs] dk) /\
    forall dk, history u c [docs] dk ->
    exists ix content place, open_index sorted dk = Ok ix /\ index_ok ix 2 content place /\
      (forall s b, (s < 2)%nat -> (b < num_slots)%nat -> NoDup (content s b)) /\
      exists q out, queried grow ix fuel (room_for 3) q out /\ repeats out.
Proof.
  exists wit_config, rp_docs. split; [exact wit_default|]. split; [exact wit_full|]. split; [exact rp_fit|].
  intros u sorted grow fuel Hs Hf.
  assert (Ed : all_docs [rp_docs] = rp_docs) by reflexivity.
  split.
  { destruct wit_full as [A B C]. apply (history_exists u wit_config 1 10 2 A B C); [discriminate|reflexivity|exact rp_fit]. }
  intros dk Hi. destruct (opened u wit_config 1 10 2 sorted wit_full Hs [rp_docs] dk rp_wss Hi rp_fit (rp_words_of u)) as (ix & E & I).
  exists ix, (held (word_hash u) 1 10 2 rp_wss), (place_of rp_docs). split; [exact E|]. split; [exact I|].
  split.
  { intros s b _ _. unfold held. rewrite rp_carriers. repeat match goal with |- context [if ?c then _ else _] => destruct c end; repeat (constructor; [cbn; intuition discriminate|]); constructor. }
  assert (Hl : forall s b, (s < 2)%nat -> (b < num_slots)%nat -> (List.length (held (word_hash u) 1 10 2 rp_wss s b) < fuel)%nat).
  { intros s b _ _. unfold held. rewrite rp_carriers. repeat match goal with |- context [if ?c then _ else _] => destruct c end; cbn [List.length]; clear -Hf; lia. }
  destruct (rp_half rp_a 1 eq_refl eq_refl) as [La Ea], (rp_half rp_b 1 eq_refl eq_refl) as [Lb Eb], (rp_half rp_c 1 eq_refl eq_refl) as [Lc Ec], (rp_half rp_d 0 eq_refl eq_refl) as [Ld Ed'].
  assert (Hat : forall s x, N.of_nat (N.to_nat (x / 2)) * 2 + N.of_nat s = x -> held (word_hash u) 1 10 2 rp_wss s (N.to_nat (x / 2)) = carriers (word_hash u) 1 10 2 0 rp_wss x).
  { intros s x Ex. unfold held. change (N.of_nat 2) with 2. rewrite Ex. reflexivity. }
  apply (read_twice grow ix (place_of rp_docs) (held (word_hash u) 1 10 2 rp_wss) fuel I Hl (N.to_nat (rp_d / 2)) (N.to_nat (rp_a / 2)) (N.to_nat (rp_b / 2)) (N.to_nat (rp_c / 2)) Ld La Lb Lc)
    with (x1 := 13) (x2 := 14) (x3 := 15) (y1 := 1) (y2 := 2) (y3 := 3) (y4 := 4) (y5 := 5) (y6 := 6) (z1 := 7) (z2 := 8) (z3 := 9) (z4 := 10) (z5 := 11) (w1 := 12).
  - intros X. apply N2Nat.inj in X. revert X. vm_compute. discriminate.
  - intros X. apply N2Nat.inj in X. revert X. vm_compute. discriminate.
  - intros X. apply N2Nat.inj in X. revert X. vm_compute. discriminate.
  - rewrite (Hat 0%nat rp_d Ed'), rp_carriers. reflexivity.
  - rewrite (Hat 1%nat rp_a Ea), rp_carriers. reflexivity.
  - rewrite (Hat 1%nat rp_b Eb), rp_carriers. reflexivity.
  - rewrite (Hat 1%nat rp_c Ec), rp_carriers. reflexivity.
  - intros b _ Nb. unfold held. change (N.of_nat 2) with 2. change (N.of_nat 0) with 0. rewrite rp_carriers.
    destruct (N.eqb_spec rp_a (N.of_nat b * 2 + 0)) as [A|_]; [exfalso; clear -A Ea; lia|]. destruct (N.eqb_spec rp_b (N.of_nat b * 2 + 0)) as [A|_]; [exfalso; clear -A Eb; lia|].
    destruct (N.eqb_spec rp_c (N.of_nat b * 2 + 0)) as [A|_]; [exfalso; clear -A Ec; lia|]. destruct (N.eqb_spec rp_d (N.of_nat b * 2 + 0)) as [A|_]; [exfalso; clear -A Ed' Nb; lia|reflexivity].
  - intros b _ Na Nb Nc. unfold held. change (N.of_nat 2) with 2. change (N.of_nat 1) with 1. rewrite rp_carriers.
    destruct (N.eqb_spec rp_a (N.of_nat b * 2 + 1)) as [A|_]; [exfalso; clear -A Ea Na; lia|]. destruct (N.eqb_spec rp_b (N.of_nat b * 2 + 1)) as [A|_]; [exfalso; clear -A Eb Nb; lia|].
    destruct (N.eqb_spec rp_c (N.of_nat b * 2 + 1)) as [A|_]; [exfalso; clear -A Ec Nc; lia|]. destruct (N.eqb_spec rp_d (N.of_nat b * 2 + 1)) as [A|_]; [exfalso; clear -A Ed'; lia|reflexivity].
Qed.
