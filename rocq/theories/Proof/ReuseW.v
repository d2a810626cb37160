(** Calling Query.Next a second time with what the first call returned. *)
From Coq Require Import String Permutation.
From Verif Require Import Model.Base Model.Address Model.Utf8 Model.Token Model.Blotter Model.Post Model.Poster Model.Shatter Model.Shard Model.Dmd Model.Fnames Model.Conc Model.Config Model.Run Model.Index Model.Query Model.Session.
From Verif Require Import Spec.Text Spec.Fingerprint Spec.Configs Spec.Posting Spec.Postings Spec.Paths Spec.Reading Spec.Querying Spec.History Spec.Str Spec.Limited Spec.Reuse.
From Verif Require Import Proof.Tactics Proof.AddressP Proof.TokenP Proof.BlotterP Proof.BlotsP Proof.QueryP Proof.QueryP2 Proof.QueryP3 Proof.SessionP Proof.SessionP2 Proof.QueryW Proof.LimitP Proof.LimitP2  Proof.ReuseP.
Local Open Scope N_scope.
Local Open Scope list_scope.

(** setMax with two states. *)
Lemma which2 ix content q h a0 l0 a1 l1 : QL ix 2 content q h -> q = set_max q -> h 0%nat = Some (a0, l0) -> h 1%nat = Some (a1, l1) ->
  N.to_nat (q_i q) = if (List.length (held_at ix content 0 a0) <? List.length (held_at ix content 1 a1))%nat then 1%nat else 0%nat.
Proof.
  intros Q M H0 H1. rewrite M. unfold set_max. cbn [q_i]. pose proof (ql_len _ _ _ _ _ Q) as Ln.
  destruct (ql_st _ _ _ _ _ Q 0%nat ltac:(lia)) as (o0 & E0 & R0). destruct (ql_st _ _ _ _ _ Q 1%nat ltac:(lia)) as (o1 & E1 & R1).
  destruct (q_states q) as [|t0 [|t1 [|? ?]]]; try discriminate. cbn [nth_error] in *. inv E0. inv E1. rewrite H0 in R0. rewrite H1 in R1.
  destruct o0 as [s0|]; [|destruct R0]. destruct o1 as [s1|]; [|destruct R1]. destruct R0 as (_ & _ & _ & T0 & _). destruct R1 as (_ & _ & _ & T1 & _).
  cbn [set_max_loop]. rewrite T0, T1. unfold nlen.
  destruct (Nat.ltb_spec (List.length (held_at ix content 0 a0)) (List.length (held_at ix content 1 a1))) as [L|L];
  repeat match goal with |- context [?x <? ?y] => destruct (N.ltb_spec x y) end; try reflexivity; lia.
Qed.
Lemma slots2 : (1 =? num_slots)%nat = false.
Proof. unfold num_slots. apply Nat.eqb_neq. lia. Qed.

Section R.
  Variable grow : nat -> nat.
  Variables (ix : index) (place : N -> bytes * N * N) (content : nat -> nat -> list N) (fuel : nat).
  Hypothesis I : index_ok ix 2 content place.
  Hypothesis Hf : forall s b, (s < 2)%nat -> (b < num_slots)%nat -> (List.length (content s b) < fuel)%nat.
  Variables (b0 b1 : nat) (x1 x2 x3 y1 y2 : N).
  Hypothesis L0 : (b0 < num_slots)%nat.
  Hypothesis L1 : (b1 < num_slots)%nat.
  Hypothesis C0 : content 0 b0 = [x1; x2; x3].
  Hypothesis C1 : content 1 b1 = [y1; y2].
  Hypothesis Z0 : forall b, (b < num_slots)%nat -> b <> b0 -> content 0 b = [].
  Hypothesis Z1 : forall b, (b < num_slots)%nat -> b <> b1 -> content 1 b = [].
  Notation held s p := (held_at ix content s p).
  Notation QL := (QL ix 2 content).

  Lemma spots : held 0 0 = [x1; x2; x3] /\ held 0 1 = [] /\ held 1 0 = [y1; y2] /\ slot ix 0 0 = b0 /\ slot ix 1 0 = b1.
  Proof.
    destruct (permof_spec grow ix place 2 content I fuel Hf 0 ltac:(lia)) as (s0 & E0 & P0 & _). destruct (permof_spec grow ix place 2 content I fuel Hf 1 ltac:(lia)) as (s1 & E1 & P1 & _).
    pose proof (io_perm _ _ _ _ I 0%nat s0 E0) as K0. pose proof (io_perm _ _ _ _ I 1%nat s1 E1) as K1.
    pose proof (io_reads _ _ _ _ I 0%nat s0 E0) as R0. pose proof (io_reads _ _ _ _ I 1%nat s1 E1) as R1.
    destruct (perm_top _ _ b0 K0 L0) as (T0 & B0 & N0).
    { rewrite (proj2 (R0 b0 L0)), C0. reflexivity. }
    { intros b' Lb' Nb'. rewrite (proj2 (R0 b' Lb')), Z0 by assumption. reflexivity. }
    destruct (perm_top _ _ b1 K1 L1) as (T1 & B1 & N1).
    { rewrite (proj2 (R1 b1 L1)), C1. reflexivity. }
    { intros b' Lb' Nb'. rewrite (proj2 (R1 b' Lb')), Z1 by assumption. reflexivity. }
    unfold held_at, slot. rewrite P0, P1, T0, T1. split; [exact C0|]. split; [apply Z0; assumption|]. auto.
  Qed.
  (** Three documents into a nil slice, as append grows small ones. *)
  Lemma fill3 f ps ds ps' e : grow 0%nat = 0%nat -> grow 1%nat = 0%nat -> grow 2%nat = 1%nat -> (forall d, In d [x1; x2; x3] -> docid2doc ix d = Ok (place d)) -> reads f ps [x1; x2; x3] ->
    fill_loop grow ix fuel false f ps None = Ok (ds, ps', e) -> docs_cap ds = 4%nat.
  Proof using.
    intros G0 G1 G2 Pl (ps1 & N1 & ps2 & N2 & ps3 & N3 & N4) E. pose proof (Pl x1 ltac:(cbn; auto)) as P1. pose proof (Pl x2 ltac:(cbn; auto)) as P2. pose proof (Pl x3 ltac:(cbn; auto)) as P3.
    destruct (place x1) as [[p1 a1] e1], (place x2) as [[p2 a2] e2], (place x3) as [[p3 a3] e3].
    revert E. generalize fuel. intros fu E. destruct fu as [|[|[|[|k]]]]; cbn [fill_loop andb] in E; try discriminate.
    - rewrite N1, P1 in E. discriminate.
    - rewrite N1, P1 in E. cbn [bind put_doc fill_loop andb] in E. rewrite N2, P2 in E. cbn [bind put_doc] in E. destruct (1 <? _)%nat; discriminate.
    - rewrite N1, P1 in E. cbn [bind put_doc fill_loop andb] in E. rewrite N2, P2, G0 in E. cbn [bind put_doc repeat List.length Nat.ltb Nat.leb app] in E. rewrite N3, P3, G1 in E. discriminate.
    - rewrite N1, P1 in E. cbn [bind put_doc fill_loop andb] in E. rewrite N2, P2, G0 in E. cbn [bind put_doc repeat List.length Nat.ltb Nat.leb app] in E. rewrite N3, P3, G1 in E.
      cbn [bind put_doc repeat List.length Nat.ltb Nat.leb app] in E. rewrite N4, G2 in E. inv E. reflexivity.
  Qed.

  Theorem second_call : exists k1 q1 e1, query_next grow ix fuel k1 (start_query ix) [MkEntry 0 None] = Ok (MkRun q1 [e1] 1, false) /\
    be_blot e1 = blot_num 2 0 b0 /\ docs_keys (be_docs e1) = map place [x1; x2; x3] /\
    (grow 0 = 0 -> grow 1 = 0 -> grow 2 = 1 -> docs_cap (be_docs e1) = 4)%nat /\
    exists k2 q2 e2 l, query_next grow ix fuel k2 q1 [e1] = Ok (MkRun q2 [e2] 1, false) /\
      be_blot e2 = blot_num 2 1 b1 /\ docs_keys (be_docs e2) = map place [x1; x2; x3] ++ l /\
      ((docs_cap (be_docs e1) <= 5)%nat -> forall k, (1 < k)%nat -> query_next grow ix fuel k q2 [e2] = Ok (MkRun q2 [e2] 1, false)).
  Proof.
    destruct spots as (P00 & P01 & P10 & S0 & S1). pose proof slots2 as F1.
    pose proof (start_QL grow ix place 2 content I fuel Hf) as Q0. set (q0 := start_query ix) in *. set (e0 := MkEntry 0 None).
    assert (V0 : h0 ix content 0 = Some (0%nat, [x1; x2; x3])) by (unfold h0; rewrite P00; reflexivity).
    assert (W0 : h0 ix content 1 = Some (0%nat, [y1; y2])) by (unfold h0; rewrite P10; reflexivity).
    pose proof (which2 ix content q0 _ _ _ _ _ Q0 eq_refl V0 W0) as I0. rewrite P00, P10 in I0. cbn [List.length Nat.ltb Nat.leb] in I0.
    pose proof (iter_any grow ix place 2 content I fuel Hf (MkRun q0 [e0] 0) (h0 ix content) e0 0%nat [x1; x2; x3] Q0 eq_refl Logic.I) as X. cbv zeta in X. cbn [r_q r_n r_dst] in X. rewrite I0 in X.
    destruct (X V0) as (q1 & Q1 & _ & M1 & T1). clear X. cbn [ended space e0 be_docs part docs_keys docs_list map List.length Nat.add Nat.leb] in M1, T1.
    destruct T1 as (e1 & E1 & Pr1 & _ & B1 & D1 & f & ps & ps' & R1 & Fl1). cbn [app] in D1. rewrite S0 in B1.
    exists 2%nat, q1, e1. split.
    { unfold query_next. fold q0. change (next_loop grow ix fuel 2 (MkRun q0 [e0] 0)) with (do! (r, v) <- next_iter grow ix fuel (MkRun q0 [e0] 0); match v with Again => next_loop grow ix fuel 1 r | Return => Ok (r, false) | ReturnEOF => Ok (r, true) end).
      rewrite E1. cbn [bind upd next_loop]. unfold next_iter. cbn [r_dst r_n nth_error bind]. reflexivity. }
    split; [exact B1|]. split; [exact D1|]. split.
    { intros G0 G1 G2. eapply fill3; [exact G0|exact G1|exact G2| |exact R1|exact Fl1]. intros d Hd. apply (io_place _ _ _ _ I 0%nat b0); [lia|exact L0|rewrite C0; exact Hd]. }
    set (h1 := gone ix content (h0 ix content) 0 0 None [x1; x2; x3]) in *. change (gone ix content (h0 ix content) 0 0 (space e0) [x1; x2; x3]) with h1 in Q1.
    assert (V1 : h1 0%nat = Some (1%nat, [])).
    { unfold h1, gone, hset. cbn [Nat.eqb ended]. unfold after. rewrite F1, P00. cbn [List.length Nat.leb]. rewrite P01. reflexivity. }
    assert (W1 : h1 1%nat = Some (0%nat, [y1; y2])) by exact W0.
    pose proof (which2 ix content q1 _ _ _ _ _ Q1 M1 V1 W1) as I1. rewrite P01, P10 in I1. cbn [List.length Nat.ltb Nat.leb] in I1.
    pose proof (iter_any grow ix place 2 content I fuel Hf (MkRun q1 [e1] 0) h1 e1 0%nat [y1; y2] Q1 eq_refl Pr1) as X. cbv zeta in X. cbn [r_q r_n r_dst] in X. rewrite I1 in X.
    destruct (X W1) as (q2 & Q2 & _ & M2 & T2). clear X. rewrite D1 in T2. cbn [map List.length] in T2.
    destruct (Nat.leb_spec (3 + List.length (part (space e1) [y1; y2])) 1) as [Y|_]; [clear -Y; lia|].
    destruct T2 as (e2 & E2 & Pr2 & Cp2 & B2 & D2 & _). rewrite S1 in B2.
    exists 2%nat, q2, e2, (map place (part (space e1) [y1; y2])). split.
    { unfold query_next. change (next_loop grow ix fuel 2 (MkRun q1 [e1] 0)) with (do! (r, v) <- next_iter grow ix fuel (MkRun q1 [e1] 0); match v with Again => next_loop grow ix fuel 1 r | Return => Ok (r, false) | ReturnEOF => Ok (r, true) end).
      rewrite E2. cbn [bind upd next_loop]. unfold next_iter. cbn [r_dst r_n nth_error bind]. reflexivity. }
    split; [exact B2|]. split; [exact D2|]. intros Lc k Lk.
    pose proof (keys_len _ Pr1) as K1. rewrite D1 in K1. cbn [map List.length] in K1. pose proof (keys_len _ Pr2) as K2. rewrite D2 in K2. rewrite app_length, map_length in K2. cbn [map List.length] in K2.
    destruct (be_docs e1) as [[m back]|] eqn:Eb1; [|discriminate]. cbn [docs_len docs_cap] in *. unfold proper in Pr1. rewrite Eb1 in Pr1. cbn [docs_wf] in Pr1.
    assert (Sp : space e1 = Some (List.length back - 3)%nat) by (unfold space; rewrite Eb1, <- K1; reflexivity). rewrite Sp in *.
    assert (En : ended (Some (List.length back - 3)%nat) [y1; y2] = false) by (cbn [ended List.length]; apply Nat.ltb_ge; clear -Lc; lia).
    rewrite En in M2. assert (H2 : gone ix content h1 1 0 (Some (List.length back - 3)%nat) [y1; y2] 1%nat = Some (0%nat, skipn (List.length back - 3) [y1; y2])).
    { unfold gone, hset. cbn [Nat.eqb]. rewrite En. reflexivity. }
    assert (Li : N.to_nat (q_i q2) = 1%nat) by (rewrite M2; exact I1).
    destruct (ql_st _ _ _ _ _ Q2 1%nat ltac:(lia)) as (o & Eo & Ro). rewrite H2 in Ro. destruct o as [rs|]; [|destruct Ro]. destruct Ro as (_ & _ & Rb & _).
    destruct (nth_shard grow ix place 2 content I 1 ltac:(lia)) as [si Esi].
    rewrite (full_next grow ix fuel q2 rs si [e2] k).
    - cbn [map List.length]. do 4 f_equal. unfold now. rewrite (ql_n _ _ _ _ _ Q2), Rb, S1, fill_blot_id_u32. replace (q_i q2) with (N.of_nat 1) by (clear -Li; lia).
      rewrite (blot_num_eq grow ix place 2 content I fuel Hf 1 b1 ltac:(lia) L1), <- B2. destruct e2; reflexivity.
    - pose proof (Hf 0%nat b0 ltac:(lia) L0) as Y. clear -Y. lia.
    - rewrite Li. exact Eo.
    - rewrite Li. exact Esi.
    - constructor; [|constructor]. split; [split; [exact Pr2|rewrite D2, app_length, map_length; cbn [List.length]; clear; lia]|]. rewrite Cp2, <- K2. cbn [part]. rewrite firstn_length. cbn [List.length]. clear -Lc Pr1 K1. lia.
    - exact Lk.
  Qed.
End R.

(** The index of [wit_docs] in the default configuration. *)
Theorem reused_wrong : exists c docs,
  default_config (bs "/") (bs "x") = Ok c /\ cfg_full c 1 10 2 /\ docs_fit docs /\
  forall u sorted grow fuel, sorts sorted -> (5 < fuel)%nat ->
    (exists dk, history u c [docs] dk) /\
    forall dk, history u c [docs] dk ->
    exists ix content place, open_index sorted dk = Ok ix /\ index_ok ix 2 content place /\
      exists k1 q1 e1 k2 q2 e2, query_next grow ix fuel k1 (start_query ix) [MkEntry 0 None] = Ok (MkRun q1 [e1] 1, false) /\
        query_next grow ix fuel k2 q1 [e1] = Ok (MkRun q2 [e2] 1, false) /\
        (exists key, In key (docs_keys (be_docs e2)) /\ ~ In key (map place (at_blot 2 content (be_blot e2)))) /\
        ((grow 0 = 0 -> grow 1 = 0 -> grow 2 = 1 -> forall k, 1 < k -> query_next grow ix fuel k q2 [e2] = Ok (MkRun q2 [e2] 1, false))%nat).
Proof.
  exists wit_config, wit_docs. split; [exact wit_default|]. split; [exact wit_full|]. split; [exact wit_fit|].
  intros u sorted grow fuel Hs Hf.
  assert (Ed : all_docs [wit_docs] = wit_docs) by reflexivity.
  split.
  { destruct wit_full as [A B C]. apply (history_exists u wit_config 1 10 2 A B C); [discriminate|reflexivity|exact wit_fit]. }
  intros dk Hi. destruct (opened u wit_config 1 10 2 sorted wit_full Hs [wit_docs] dk wit_wss Hi wit_fit (wit_words u)) as (ix & E & I).
  exists ix, (held (word_hash u) 1 10 2 wit_wss), (place_of wit_docs). split; [exact E|]. split; [exact I|].
  assert (B0 : N.of_nat (N.to_nat (wit_blot1 / 2)) * 2 = wit_blot1) by (vm_compute; reflexivity).
  assert (B1 : N.of_nat (N.to_nat (wit_blot2 / 2)) * 2 + 1 = wit_blot2) by (vm_compute; reflexivity).
  assert (LL0 : (N.to_nat (wit_blot1 / 2) < num_slots)%nat) by (assert (wit_blot1 / 2 < 65536) by (vm_compute; reflexivity); unfold num_slots; lia).
  assert (LL1 : (N.to_nat (wit_blot2 / 2) < num_slots)%nat) by (assert (wit_blot2 / 2 < 65536) as X by (vm_compute; reflexivity); clear -X; unfold num_slots; lia).
  assert (Hl : forall s b, (s < 2)%nat -> (b < num_slots)%nat -> (List.length (held (word_hash u) 1 10 2 wit_wss s b) < fuel)%nat).
  { intros s b _ _. unfold held. rewrite wit_carriers. repeat match goal with |- context [if ?c then _ else _] => destruct c end; cbn [List.length]; clear -Hf; lia. }
  destruct (second_call grow ix (place_of wit_docs) (held (word_hash u) 1 10 2 wit_wss) fuel I Hl (N.to_nat (wit_blot1 / 2)) (N.to_nat (wit_blot2 / 2)) 1 2 3 4 5 LL0 LL1) as (k1 & q1 & e1 & E1 & _ & _ & Cp & k2 & q2 & e2 & l & E2 & Be & De & St).
  - unfold held. change (N.of_nat 2) with 2. change (N.of_nat 0) with 0. rewrite N.add_0_r, B0, wit_carriers. reflexivity.
  - unfold held. change (N.of_nat 2) with 2. change (N.of_nat 1) with 1. rewrite B1, wit_carriers. reflexivity.
  - intros b Lb Nb. unfold held. change (N.of_nat 2) with 2. change (N.of_nat 0) with 0. rewrite wit_carriers.
    destruct (N.eqb_spec wit_blot1 (N.of_nat b * 2 + 0)) as [A|_]; [exfalso; clear -A B0 Nb; lia|].
    destruct (N.eqb_spec wit_blot2 (N.of_nat b * 2 + 0)) as [A|_]; [exfalso; clear -A B1; lia|reflexivity].
  - intros b Lb Nb. unfold held. change (N.of_nat 2) with 2. change (N.of_nat 1) with 1. rewrite wit_carriers.
    destruct (N.eqb_spec wit_blot1 (N.of_nat b * 2 + 1)) as [A|_]; [exfalso; clear -A B0; lia|].
    destruct (N.eqb_spec wit_blot2 (N.of_nat b * 2 + 1)) as [A|_]; [exfalso; clear -A B1 Nb; lia|reflexivity].
  - exists k1, q1, e1, k2, q2, e2. split; [exact E1|]. split; [exact E2|]. split.
    + exists (place_of wit_docs 1). split; [rewrite De; left; reflexivity|]. rewrite Be. unfold blot_num. change (N.of_nat 2) with 2. change (N.of_nat 1) with 1. rewrite B1.
      unfold at_blot, held. rewrite !N2Nat.id, wit_carriers. change (wit_blot2 / N.of_nat 2 mod 65536 * N.of_nat 2 + wit_blot2 mod N.of_nat 2) with wit_blot2. change (wit_blot1 =? wit_blot2) with false. rewrite N.eqb_refl.
      vm_compute. intuition discriminate.
    + intros G0 G1 G2. apply St. rewrite (Cp G0 G1 G2). clear. lia.
Qed.
