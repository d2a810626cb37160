(** Next while others write: no blot is returned twice, and none is left out. *)
From Coq Require Import Permutation Lia.
From Verif Require Import Model.Base Model.Address Model.Varint Model.Post Model.Poster Model.Shard Model.Dmd Model.Fnames Model.Config Model.Index Model.Query Model.Session Model.Crash Model.Live Model.Moments Model.NextMoments.
From Verif Require Import Spec.Reading Spec.Querying Spec.InTurn Proof.Tactics Proof.AddressP Proof.QueryP Proof.QueryP2 Proof.LiveP Proof.MomentsP Proof.AgreeP Proof.QueryP3 Proof.NextMomentsP.
Local Open Scope N_scope.

Section A.
  Variable grow : nat -> nat.
  Variables (ix : index) (n : nat) (fuel : nat).
  Variable now : nat -> files.
  Hypothesis Ln : length (ix_shards ix) = n.
  Hypothesis Pn : (0 < n)%nat.
  Hypothesis Mx : N.of_nat n < 65536.
  Hypothesis Pm : forall si, In si (ix_shards ix) -> perm_ok (si_counts si) (si_perm si).
  Notation AI := (AI ix n).
  (** No list with two documents or more in the table is found shorter than two. *)
  Hypothesis Ns : forall s si b t ds, nth_error (ix_shards ix) s = Some si -> (b < num_slots)%nat -> 2 <= count si b ->
    query_get_during grow ix (fun i => now (t + i)%nat) fuel (num n s b) None = Ok ds -> (2 <= docs_len ds)%nat.
  Lemma Ns0 : forall s si b ds, nth_error (ix_shards ix) s = Some si -> (b < num_slots)%nat -> 2 <= count si b -> got grow ix 0 si b = Ok ds -> (2 <= docs_len ds)%nat.
  Proof using. intros s si b ds _ _ _ E. discriminate E. Qed.

  Lemma iter_timed r h out t r' v t' : AI (r_q r) h (out ++ firstn (r_n r) (r_dst r)) -> inside (r_n r) (r_dst r) ->
    next_iter_during grow ix now fuel t r = Ok (r', v, t') ->
    exists h', AI (r_q r') h' (out ++ firstn (r_n r') (r_dst r')) /\ inside (r_n r') (r_dst r') /\
      (v = ReturnEOF -> firstn (r_n r') (r_dst r') = [] /\ forall s rs, nth_error (q_states (r_q r')) s = Some (Some rs) -> rs_total rs = 0).
  Proof.
    intros A In_ E. unfold next_iter_during in E. set (q := r_q r) in *.
    destruct (nth_error (r_dst r) (r_n r)) as [entry|] eqn:Ee.
    2:{ inversion E. subst. exists h. split; [exact A|]. split; [exact In_|]. discriminate. }
    assert (Ld : (r_n r < length (r_dst r))%nat) by (apply nth_error_Some; congruence).
    pose proof (In_ _ _ (le_n _) Ee) as De. set (p := N.to_nat (q_i q)) in *.
    assert (Lp : (p < n)%nat) by (pose proof (ai_i _ _ _ _ _ A); unfold p; lia).
    destruct (shard_at grow ix n Ln Pn Mx p Lp) as [si Esi]. pose proof (ai_st _ _ _ _ _ A p si Esi) as Stp. rewrite Stp in E.
    destruct (h p) as [a|] eqn:Ha; cbn [option_map] in E, Stp.
    - pose proof (ai_h _ _ _ _ _ A p a Lp Ha) as La.
      unfold fill_blot_during in E. rewrite Esi, De in E. cbn [is_nil negb] in E. rewrite (ai_n _ _ _ _ _ A) in E.
      destruct (fill_loop_during _ _ _ _ _ _ _ _ _) as [[[[ds ps] eof] t1]| | |] eqn:Ef; cbn [bind] in E; try discriminate.
      rewrite <- (Nat.add_0_r t) in Ef. apply fill_later in Ef. destruct Ef as (-> & G & _).
      match type of E with context [advance ix ?q0 ?r0 p] => destruct (advance ix q0 r0 p) as [q1| | |] eqn:Ad1 end; cbn [bind] in E; try discriminate.
      cbn [be_docs be_blot] in E.
      assert (Lb : (nth a (si_perm si) 0 < num_slots)%nat) by (exact (perm_lt grow ix n Ln Pn Mx Pm p si a Esi La)).
      assert (Nu : fill_blot_id (N.of_nat n) (q_i q) (u32 (N.of_nat (rs_blot (read_state_at si a)))) = num n p (nth a (si_perm si) 0%nat)).
      { rewrite <- (fill_number grow ix n Ln Pn Mx) by assumption. unfold p. rewrite N2Nat.id. reflexivity. }
      rewrite Nu in E. clear Nu.
      apply (advance_is grow ix n Ln Pn Mx Pm _ p si _ q1 Esi) in Ad1; [|exact La]. destruct Ad1 as (v1 & -> & V1 & V2 & V3). cbn [q_states q_i q_n q_nil rs_at rs_total] in *.
      rewrite <- (ai_n _ _ _ _ _ A) in E.
      match type of E with context [upd p (option_map _ v1) ?x] => set (sts := x) in * end.
      assert (Ls : length sts = n) by (unfold sts; rewrite upd_length; exact (ai_len _ _ _ _ _ A)).
      assert (St : forall s, s <> p -> nth_error sts s = nth_error (q_states q) s) by (intros s Hs; unfold sts; apply nth_error_upd_ne; congruence).
      pose proof (fun more => move_AI grow ix n 0 Ln Pn Mx Pm Ns0 q h (out ++ firstn (r_n r) (r_dst r)) p a si v1 sts (q_i q) (q_nil q) more A Esi Ha Ls St V1 V3) as Mv. clearbody sts.
      destruct (Nat.leb_spec (docs_len ds) 1) as [Lx|Lx].
      + assert (Cs : count si (nth a (si_perm si) 0%nat) <= 1).
        { destruct (N.le_gt_cases (count si (nth a (si_perm si) 0%nat)) 1) as [X|X]; [exact X|]. pose proof (Ns p si _ t ds Esi Lb ltac:(lia)) as Ns'; rewrite (get_from grow ix n fuel now Ln Pn Mx Pm _ p si _ Esi Lb) in Ns'; specialize (Ns' G). lia. }
        specialize (Mv [] (or_introl (conj eq_refl Cs))). rewrite app_nil_r in Mv. rewrite (V2 Cs) in *. cbn [option_map] in *.
        match type of Mv with AgreeP.AI _ _ ?x _ _ => set (q1 := x) in * end.
        match type of E with context [advance ix q1 ?r0 ?p0] => destruct (advance ix q1 r0 p0) as [q2| | |] eqn:Ad2 end; cbn [bind] in E; try discriminate.
        inversion E. subst r' v. cbn [r_q r_dst r_n]. set (p2 := N.to_nat (q_i q1)) in *.
        assert (L2 : (p2 < n)%nat) by (pose proof (ai_i _ _ _ _ _ Mv); unfold p2; lia). destruct (shard_at grow ix n Ln Pn Mx p2 L2) as [s2 Es2].
        apply (advance_is grow ix n Ln Pn Mx Pm q1 p2 s2 _ q2 Es2) in Ad2; [|exact La]. destruct Ad2 as (v2 & -> & _ & W2 & _). rewrite (W2 Cs). cbn [option_map].
        exists (hset (hset h p None) p2 None). rewrite firstn_upd_le by lia. split; [|split; [apply (inside_upd grow ix n Ln Pn Mx); [exact In_|reflexivity]|discriminate]].
        apply (leave_AI grow ix n 0 Ln Pn Mx Pm Ns0 q1 _ _ p2 s2 Mv Es2). intros b Hb. unfold hset in Hb. destruct (Nat.eqb_spec p2 p) as [|Np]; [discriminate|].
        pose proof (ai_st _ _ _ _ _ A p2 s2 Es2) as X. rewrite Hb in X. cbn [option_map] in X.
        destruct (ai_max _ _ _ _ _ A p2 _ X) as [Z|(rs' & Z & Le)]; [change (count s2 (nth b (si_perm s2) 0%nat) = 0) in Z; lia|].
        fold p in Z. assert (rs' = read_state_at si a) as -> by congruence.
        change (count s2 (nth b (si_perm s2) 0%nat) <= count si (nth a (si_perm si) 0%nat)) in Le. lia.
      + inversion E. subst r' v. cbn [r_q r_dst r_n]. exists (hset h p v1). split; [|split; [apply (inside_upd_S grow ix n Ln Pn Mx), In_|discriminate]].
        rewrite firstn_upd_S by exact Ld. specialize (Mv [MkEntry (num n p (nth a (si_perm si) 0%nat)) ds]). rewrite <- app_assoc in Mv. apply Mv.
        right. eexists. split; reflexivity.
    - destruct (N.eqb_spec (u32 (q_nil q + 1)) (q_n q)) as [En|En].
      + inversion E. subst r' v. cbn [r_q r_dst r_n].
        assert (A' : AI (MkQ (q_states q) (q_i q) (q_n q) (u32 (q_nil q + 1))) h (out ++ firstn (r_n r) (r_dst r))) by (destruct A; constructor; assumption).
        exists h. split; [exact A'|]. split; [exact In_|]. destruct (Nat.eqb_spec (r_n r) 0) as [Z|Z]; [|discriminate]. intros _.
        split; [rewrite Z; reflexivity|]. intros s rs Hs. destruct (ai_max _ _ _ _ _ A s rs Hs) as [X|(rs' & X & _)]; [exact X|]. fold p in X. congruence.
      + inversion E. subst r' v. cbn [r_q r_dst r_n]. exists h. split; [|split; [exact In_|discriminate]].
        assert (Az : forall s rs, nth_error (q_states q) s = Some (Some rs) -> rs_total rs = 0) by (intros s rs Hs; destruct (ai_max _ _ _ _ _ A s rs Hs) as [X|(rs' & X & _)]; [exact X|fold p in X; congruence]).
        pose proof (ai_n _ _ _ _ _ A) as An. pose proof (ai_i _ _ _ _ _ A) as Ai. destruct A. constructor; cbn [q_states q_i q_n q_nil]; try assumption; [|intros s rs Hs; left; eapply Az, Hs].
        rewrite An. unfold u32. rewrite (N.mod_small (q_i q + 1)) by lia. destruct (N.eqb_spec (q_i q + 1) (N.of_nat n)); lia.
  Qed.
  Lemma loop_timed out : forall k t r h r' eof t', AI (r_q r) h (out ++ firstn (r_n r) (r_dst r)) -> inside (r_n r) (r_dst r) -> next_loop_during grow ix now fuel k t r = Ok (r', eof, t') ->
    exists h', AI (r_q r') h' (out ++ firstn (r_n r') (r_dst r')) /\
      (eof = true -> firstn (r_n r') (r_dst r') = [] /\ forall s rs, nth_error (q_states (r_q r')) s = Some (Some rs) -> rs_total rs = 0).
  Proof.
    induction k as [|k IH]; intros t r h r' eof t' A In_ E; cbn [next_loop_during] in E; [discriminate|].
    destruct (next_iter_during grow ix now fuel t r) as [[[r1 v] t1]| | |] eqn:Ei; cbn [bind] in E; try discriminate.
    destruct (iter_timed r h out t r1 v t1 A In_ Ei) as (h1 & A1 & I1 & Z1).
    destruct v; [exact (IH _ _ _ _ _ _ A1 I1 E)| |]; inversion E; subst; exists h1; (split; [exact A1|]); [discriminate|intros _; apply Z1; reflexivity].
  Qed.
  Lemma queried_timed q t out : queried_during grow ix now fuel unlimited q t out -> exists h, AI q h out.
  Proof.
    induction 1 as [|q t out dst k r eof t' Q [h A] U E]; [exists (fun _ => Some 0%nat); exact (start_AI grow ix n 0 Ln Pn Mx Pm Ns0)|].
    destruct (loop_timed out k t (MkRun q dst 0) h r eof t') as (h' & A' & _); cbn [r_q r_n r_dst firstn]; [rewrite app_nil_r; exact A|apply unlimited_inside, U|exact E|]. exists h'. exact A'.
  Qed.
  Theorem queried_once_during q t out : queried_during grow ix now fuel unlimited q t out -> NoDup (map be_blot out).
  Proof. intros Q. destruct (queried_timed q t out Q) as [h A]. exact (ai_nodup _ _ _ _ _ A). Qed.
  Theorem queried_all_during q t out dst k r t' : queried_during grow ix now fuel unlimited q t out -> unlimited dst -> query_next_during grow ix now fuel k t q dst = Ok (r, true, t') ->
    forall s si b, nth_error (ix_shards ix) s = Some si -> (b < num_slots)%nat -> 2 <= count si b -> In (num n s b) (map be_blot out).
  Proof.
    intros Q U E s si b Es Lb C. destruct (queried_timed q t out Q) as [h A].
    destruct (loop_timed out k t (MkRun q dst 0) h r true t') as (h' & A' & Z); cbn [r_q r_n r_dst firstn]; [rewrite app_nil_r; exact A|apply unlimited_inside, U|exact E|].
    destruct (Z eq_refl) as [Z1 Z2]. rewrite Z1, app_nil_r in A'. destruct (perm_onto grow ix n Ln Pn Mx Pm s si b Es Lb) as (j & Lj & <-).
    apply (ai_done _ _ _ _ _ A' s si j Es Lj C). intros a Ha.
    pose proof (ai_st _ _ _ _ _ A' s si Es) as X. rewrite Ha in X. cbn [option_map] in X. specialize (Z2 s _ X). change (count si (nth a (si_perm si) 0%nat) = 0) in Z2.
    pose proof (ai_h _ _ _ _ _ A' s a (shard_at_lt ix n Ln _ _ Es) Ha) as La. destruct (Nat.lt_ge_cases j a) as [|G]; [assumption|]. pose proof (count_le ix Pm s si a j Es ltac:(lia)). lia.
  Qed.
End A.

Lemma open_file sorted iix pos s : shard_open sorted iix pos = Ok s -> MkShardIndex (si_heads s) (si_counts s) (si_perm s) pos = s.
Proof.
  unfold shard_open. generalize num_slots as n. intros n E. destruct (read_table n iix) as [t| | |]; try discriminate. injection E as <-. reflexivity.
Qed.
Lemma live_for (f : bytes -> bytes -> result shard_index) : (forall iix pos s, f iix pos = Ok s -> MkShardIndex (si_heads s) (si_counts s) (si_perm s) pos = s) ->
  forall m l xs, for_shards f m l = Ok xs -> live_shards xs (map (fun p => (Some (fst p), Some (snd p))) l) = xs.
Proof.
  intros Hf. induction m as [|m IH]; intros [|[iix pos] l] xs E; cbn [for_shards] in E; try discriminate.
  1,2: injection E as <-; reflexivity.
  destruct (f iix pos) as [s| | |] eqn:Es; cbn [bind] in E; try discriminate.
  destruct (for_shards f m l) as [ys| | |] eqn:Ey; cbn [bind] in E; try discriminate. injection E as <-.
  cbn [map fst snd live_shards]. rewrite (IH _ _ Ey), (Hf _ _ _ Es). reflexivity.
Qed.
(** The files an index was opened with change nothing in it. *)
Lemma live_open sorted dk ix : open_index sorted dk = Ok ix -> live ix (files_of dk) = ix.
Proof.
  unfold open_index. pose proof (open_file sorted) as Hf. revert Hf. generalize (shard_open sorted). intros f Hf E.
  destruct (read_config dk) as [c| | |]; cbn [bind] in E; try discriminate.
  destruct (k_dmd dk) as [d|] eqn:Ed; cbn [read_some bind] in E; try discriminate.
  destruct (read_some read_fnames (k_fnames dk)) as [fn| | |]; cbn [bind] in E; try discriminate.
  destruct (_ <? 0)%Z; [discriminate|]. destruct (for_shards _ _ _) as [xs| | |] eqn:Ef; cbn [bind] in E; try discriminate.
  injection E as <-. unfold live, files_of. cbn [w_dmd w_shards ix_cfg ix_dmd ix_fnames ix_shards]. rewrite Ed, (live_for f Hf _ _ _ Ef). reflexivity.
Qed.
Lemma queried_once_more grow ix fs fuel ok q out : queried grow (live ix fs) fuel ok q out -> exists t, queried_during grow ix (fun _ => fs) fuel ok q t out.
Proof.
  induction 1 as [|q out dst k r eof Q [t IH] U E].
  - rewrite start_once. exists 0%nat. constructor.
  - rewrite <- (once_next grow ix fs fuel k t) in E. destruct (query_next_during _ _ _ _ _ _ _ _) as [[[r' eof'] t']| | |] eqn:En; cbn [untimed] in E; try discriminate.
    injection E as -> ->. exists t'. econstructor; eassumption.
Qed.
