(** Query.Next with empty entries of any room: the loop, and all calls. *)
From Coq Require Import Permutation.
From Verif Require Import Model.Base Model.Address Model.Post Model.Poster Model.Shard Model.Dmd Model.Fnames Model.Config Model.Index Model.Query.
From Verif Require Import Spec.Reading Spec.Querying Spec.Limited Proof.Tactics Proof.AddressP Proof.QueryP Proof.QueryP2 Proof.QueryP3 Proof.LimitP.
Local Open Scope N_scope.

Section L.
  Variable grow : nat -> nat.
  Variables (ix : index) (place : N -> bytes * N * N) (n : nat) (content : nat -> nat -> list N).
  Hypothesis I : index_ok ix n content place.
  Variable fuel : nat.
  Hypothesis Hf : forall s b, (s < n)%nat -> (b < num_slots)%nat -> (length (content s b) < fuel)%nat.
  Notation QL := (QL ix n content).
  Notation Phi := (Phi n fuel).

  Lemma emptied_fresh e : emptied e -> fresh e.
  Proof. unfold emptied, fresh. destruct (be_docs e) as [[? ?]|]; cbn; auto. Qed.
  Definition freshes (k : nat) (dst : list blot_entry) : Prop := forall i e, (k <= i)%nat -> nth_error dst i = Some e -> fresh e.
  Lemma freshes_upd k dst e : (k < length dst)%nat -> fresh e -> freshes k dst -> freshes k (upd k e dst).
  Proof.
    intros L F A i e' Li E. destruct (Nat.eq_dec k i) as [<-|N].
    - rewrite nth_error_upd_eq in E by exact L. inv E. exact F.
    - rewrite nth_error_upd_ne in E by exact N. exact (A _ _ Li E).
  Qed.
  Lemma freshes_S k dst e : freshes k dst -> freshes (S k) (upd k e dst).
  Proof. intros A i e' Li E. rewrite nth_error_upd_ne in E by lia. apply (A i); [lia|exact E]. Qed.

  Lemma at_blot_num s b : (s < n)%nat -> (b < num_slots)%nat -> at_blot n content (blot_num n s b) = content s b /\ blot_num n s b < N.of_nat n * 65536.
  Proof.
    intros Ls Lb. destruct (number_back grow n content fuel Hf (s, b)) as (A & B & C); [split; assumption|]. cbn [fst snd] in *. unfold number in *. cbn [fst snd] in *.
    unfold at_blot, blot_num. rewrite A, B. split; [reflexivity|exact C].
  Qed.

  Record call_lim (r r' : qrun) (h h' : nat -> astate) (eof : bool) : Prop := {
    cl_q : QL (r_q r') h';
    cl_es : exists es, firstn (r_n r') (r_dst r') = firstn (r_n r) (r_dst r) ++ es /\ Forall (excerpt n content place) es /\
      r_n r' = (r_n r + length es)%nat /\ (2 * length es + Phi h' <= Phi h)%nat;
    cl_end : eof = (r_n r' =? 0)%nat \/ eof = false /\ (length (r_dst r) <= r_n r')%nat }.

  Lemma next_lim : forall m r h, (Phi h + N.to_nat (gap n (r_q r)) < m)%nat ->
    QL (r_q r) h -> freshes (r_n r) (r_dst r) -> (r_n r <= length (r_dst r))%nat ->
    exists k r' h' eof, next_loop grow ix fuel k r = Ok (r', eof) /\ call_lim r r' h h' eof.
  Proof.
    induction m as [|m IH]; intros r h Lm Q Fr Ln; [lia|].
    destruct (nth_error (r_dst r) (r_n r)) as [entry|] eqn:Ee.
    2:{ exists 1%nat, r, h, false. apply nth_error_None in Ee. cbn [next_loop]. unfold next_iter.
      assert (nth_error (r_dst r) (r_n r) = None) as -> by (apply nth_error_None; exact Ee). cbn [bind]. split; [reflexivity|].
      constructor; [exact Q| |right; auto]. exists []. rewrite app_nil_r. cbn [length]. repeat split; auto; lia. }
    assert (Ln' : (r_n r < length (r_dst r))%nat) by (apply nth_error_Some; congruence).
    set (i := N.to_nat (q_i (r_q r))). pose proof (ql_i _ _ _ _ _ Q) as Li0. assert (Li : (i < n)%nat) by (unfold i; lia).
    destruct (h i) as [[a suf]|] eqn:Hi.
    - destruct (QL_room ix n content _ _ _ _ _ Q Li Hi) as (La & pre & Ep). pose proof (Fr _ _ (le_n _) Ee) as Fe.
      destruct (iter_some grow ix place n content I fuel Hf r h entry a suf Q Ee Fe Hi) as (q1 & Q1 & N1 & M1 & S1). fold i in Q1, S1.
      destruct (gone_less grow ix place n content I fuel Hf h i a (room entry) suf Li La Hi) as [G1 G2].
      destruct (Nat.leb_spec (length (part (room entry) suf)) 1) as [Sm|Bg].
      + destruct S1 as (q2 & e & E & Q2 & N2 & _ & Fe' & _). pose proof (ql_i _ _ _ _ _ Q1) as Li1.
        assert (Lt : (Phi (hset (gone ix content h i a (room entry) suf) (N.to_nat (q_i q1)) (after ix content i a (N.to_nat (q_i q1)))) < Phi h)%nat).
        { apply (skip_less grow ix place n content I fuel Hf); auto; [lia|]. intros En. rewrite En in M1. rewrite M1. reflexivity. }
        destruct (IH (MkRun q2 (upd (r_n r) e (r_dst r)) (r_n r)) (hset (gone ix content h i a (room entry) suf) (N.to_nat (q_i q1)) (after ix content i a (N.to_nat (q_i q1))))) as (k & r' & h' & eof & E2 & C); cbn [r_q r_n r_dst].
        2:{ exact Q2. } { unfold gap in *. rewrite N2. lia. } { apply freshes_upd; auto. } { rewrite upd_length. exact Ln. }
        exists (S k), r', h', eof. cbn [next_loop]. rewrite E. cbn [bind]. split; [exact E2|].
        destruct C as [C1 (es & C2 & C3 & C4 & C5) C6]. cbn [r_q r_n r_dst] in *. rewrite upd_length in C6. constructor; [exact C1| |exact C6].
        exists es. rewrite firstn_upd_le in C2 by lia. repeat split; auto; lia.
      + destruct S1 as (e & E & Eb & Ed).
        assert (Lt : (2 + Phi (gone ix content h i a (room entry) suf) <= Phi h)%nat).
        { pose proof (held_fuel grow ix place n content I fuel Hf i a Li La) as F0. rewrite Ep, app_length in F0.
          assert (Lp : (length (part (room entry) suf) <= length suf)%nat) by (unfold part; destruct (room entry); [rewrite firstn_length|]; lia).
          destruct (ended (room entry) suf); [specialize (G1 eq_refl)|specialize (G2 eq_refl)]; lia. }
        destruct (IH (MkRun q1 (upd (r_n r) e (r_dst r)) (S (r_n r))) (gone ix content h i a (room entry) suf)) as (k & r' & h' & eof & E2 & C); cbn [r_q r_n r_dst].
        2:{ exact Q1. } { unfold gap in *. rewrite N1. lia. } { apply freshes_S; auto. } { rewrite upd_length. lia. }
        exists (S k), r', h', eof. cbn [next_loop]. rewrite E. cbn [bind]. split; [exact E2|].
        destruct C as [C1 (es & C2 & C3 & C4 & C5) C6]. cbn [r_q r_n r_dst] in *. rewrite upd_length in C6. constructor; [exact C1| |exact C6].
        exists (e :: es). rewrite firstn_upd_S in C2 by lia. rewrite <- app_assoc in C2. cbn [length]. split; [exact C2|]. split; [|split; lia].
        constructor; [|exact C3]. destruct (at_blot_num i (slot ix i a) Li (slot_lt grow ix place n content I fuel Hf i a Li La)) as [A1 A2].
        unfold excerpt. rewrite Eb, A1. split; [exact A2|]. exists pre, (part (room entry) suf), (skipn (length (part (room entry) suf)) suf). split; [|split; [lia|exact Ed]].
        change (content i (slot ix i a)) with (held_at ix content i a). rewrite Ep. f_equal. unfold part. destruct (room entry) as [c|]; [|rewrite skipn_all, app_nil_r; reflexivity].
        rewrite <- (firstn_skipn c suf) at 1. f_equal. rewrite firstn_length. destruct (Nat.min_spec c (length suf)) as [[X ->]|[X ->]]; [reflexivity|]. rewrite skipn_all, skipn_all2 by exact X. reflexivity.
    - destruct (iter_nil grow ix place n content I fuel Hf r h Q Ln' Hi) as (q & v & E & Q2 & V). destruct V as [->|[-> G]].
      + exists 1%nat, (MkRun q (r_dst r) (r_n r)), h, (r_n r =? 0)%nat. cbn [next_loop]. rewrite E. cbn [bind]. split; [destruct (r_n r =? 0)%nat; reflexivity|].
        constructor; [exact Q2| |left; reflexivity]. exists []. rewrite app_nil_r. cbn [length r_n r_dst]. repeat split; auto; lia.
      + destruct (IH (MkRun q (r_dst r) (r_n r)) h) as (k & r' & h' & eof & E2 & C); cbn [r_q r_n r_dst]; auto; [lia|].
        exists (S k), r', h', eof. cbn [next_loop]. rewrite E. cbn [bind]. split; [exact E2|]. destruct C as [C1 C2 C3]. constructor; assumption.
  Qed.

  Definition h0 : nat -> astate := fun s => Some (0%nat, held_at ix content s 0).
  Lemma start_QL : QL (start_query ix) h0.
  Proof.
    pose proof (io_len _ _ _ _ I) as Ln. pose proof (io_pos _ _ _ _ I) as Pn. unfold start_query. rewrite (u32_n grow ix place n content I). constructor.
    - reflexivity.
    - unfold set_max. cbn [q_states]. rewrite map_length. exact Ln.
    - intros s Ls. destruct (read_at grow ix place n content I fuel Hf s 0 Ls) as (si & E & _ & R); [unfold num_slots; lia|].
      exists (Some (read_state_at si 0)). split; [|exact R]. unfold set_max. cbn [q_states]. rewrite nth_error_map, E. reflexivity.
    - apply (set_max_i grow ix place n content I fuel Hf). cbn [q_states]. rewrite map_length. exact Ln.
    - unfold set_max, p32. cbn [q_nil]. lia.
  Qed.
  Notation asked := (queried grow ix fuel (Forall emptied)).
  Lemma asked_inv q out : asked q out -> exists h, QL q h /\ Forall (excerpt n content place) out /\ (2 * length out + Phi h <= Phi h0)%nat.
  Proof.
    induction 1 as [|q out dst k r eof Q IH D E].
    - exists h0. split; [exact start_QL|]. split; [constructor|]. cbn [length]. lia.
    - destruct IH as (h & Qh & Fo & Lo).
      destruct (next_lim _ (MkRun q dst 0) h (Nat.lt_succ_diag_r _) Qh) as (k' & r' & h' & eof' & E' & C); cbn [r_n r_dst]; [|lia|].
      { intros i e _ Ei. apply emptied_fresh. rewrite Forall_forall in D. apply D. eapply nth_error_In, Ei. }
      pose proof (next_loop_det grow ix fuel _ _ _ _ _ E E') as X. inv X. destruct C as [C1 (es & C2 & C3 & C4 & C5) _]. cbn [r_n r_dst firstn app] in C2.
      exists h'. split; [exact C1|]. rewrite C2. split; [apply Forall_app; auto|]. rewrite app_length. lia.
  Qed.
  Lemma emptied_freshes dst : Forall emptied dst -> freshes 0 dst.
  Proof. intros D i e _ Ei. apply emptied_fresh. rewrite Forall_forall in D. apply D. eapply nth_error_In, Ei. Qed.

  Theorem limited_next q out dst : asked q out -> Forall emptied dst -> exists k r eof, query_next grow ix fuel k q dst = Ok (r, eof).
  Proof.
    intros Q D. destruct (asked_inv _ _ Q) as (h & Qh & _).
    destruct (next_lim _ (MkRun q dst 0) h (Nat.lt_succ_diag_r _) Qh (emptied_freshes _ D)) as (k' & r' & h' & eof' & E' & _); [cbn [r_n]; lia|]. eauto.
  Qed.
  Theorem limited_sound q out : asked q out -> Forall (excerpt n content place) out.
  Proof. intros Q. destruct (asked_inv _ _ Q) as (h & _ & X & _). exact X. Qed.
  Theorem limited_bounded : exists B, forall q out, asked q out -> (length out <= B)%nat.
  Proof. exists (Phi h0). intros q out Q. destruct (asked_inv _ _ Q) as (h & _ & _ & X). lia. Qed.
  Lemma limited_end_from : forall m q out h dst, (Phi h < m)%nat -> QL q h -> asked q out -> Forall emptied dst -> dst <> [] ->
    exists q' out' k r, asked q' (out ++ out') /\ query_next grow ix fuel k q' dst = Ok (r, true) /\ r_n r = 0%nat.
  Proof.
    induction m as [|m IH]; intros q out h dst Lm Qh Q D Ne; [lia|].
    destruct (next_lim _ (MkRun q dst 0) h (Nat.lt_succ_diag_r _) Qh (emptied_freshes _ D)) as (k & r & h' & eof & E & C); [cbn [r_n]; lia|].
    destruct C as [C1 (es & C2 & C3 & C4 & C5) C6]. cbn [r_n r_dst firstn app Nat.add] in *. change (next_loop grow ix fuel k (MkRun q dst 0)) with (query_next grow ix fuel k q dst) in E.
    destruct (Nat.eq_dec (r_n r) 0) as [Z|Z].
    - assert (eof = true) as ->. { destruct C6 as [->|[_ X]]; [rewrite Z; reflexivity|]. rewrite Z in X. destruct dst; [congruence|cbn in X; lia]. }
      exists q, [], k, r. rewrite app_nil_r. auto.
    - pose proof (queried_next grow ix fuel (Forall emptied) q out dst k r eof Q D E) as Q'.
      destruct (IH (r_q r) (out ++ firstn (r_n r) (r_dst r)) h' dst) as (q' & out' & k' & r' & A & B); auto; [lia|].
      rewrite <- app_assoc in A. eauto 8.
  Qed.
  Theorem limited_ends q out dst : asked q out -> Forall emptied dst -> dst <> [] ->
    exists q' out' k r, asked q' (out ++ out') /\ query_next grow ix fuel k q' dst = Ok (r, true) /\ r_n r = 0%nat.
  Proof. intros Q D Ne. destruct (asked_inv _ _ Q) as (h & Qh & _). eapply limited_end_from; eauto. Qed.
End L.
