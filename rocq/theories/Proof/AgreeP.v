(** Query.Next with unlimited entries against Query.Get, for any open index. *)
From Coq Require Import Permutation.
From Verif Require Import Model.Base Model.Address Model.Post Model.Poster Model.Shard Model.Dmd Model.Fnames Model.Config Model.Index Model.Query.
From Verif Require Import Spec.Reading Spec.Querying Proof.Tactics Proof.AddressP Proof.QueryP Proof.QueryP2.
From Coq Require Import Lia.
Local Open Scope N_scope.

Lemma fill_is_get grow ix f : forall fuel ps ds ds' ps' eof, fill_loop grow ix fuel false f ps ds = Ok (ds', ps', eof) ->
  eof = true /\ get_loop grow ix fuel false f ps ds = Ok ds'.
Proof.
  induction fuel as [|k IH]; intros ps ds ds' ps' eof E; cbn [fill_loop get_loop andb] in *; [discriminate|].
  destruct (posts_next ps f) as [[did ps1]|[]| |] eqn:Ep; try discriminate.
  - destruct (docid2doc ix did) as [[[path st] en]| | |]; cbn [bind] in *; try discriminate.
    destruct (put_doc grow false ds path st en) as [ds1| | |]; cbn [bind] in *; try discriminate. eapply IH, E.
  - inversion E. subst. split; reflexivity.
Qed.

Section A.
  Variable grow : nat -> nat.
  Variables (ix : index) (n : nat) (fuel : nat).
  Hypothesis Ln : length (ix_shards ix) = n.
  Hypothesis Pn : (0 < n)%nat.
  Hypothesis Mx : N.of_nat n < 65536.
  Hypothesis Pm : forall si, In si (ix_shards ix) -> perm_ok (si_counts si) (si_perm si).

  Lemma n_u32 : u32 (nlen (ix_shards ix)) = N.of_nat n.
  Proof. unfold u32, nlen. rewrite Ln. apply N.mod_small. lia. Qed.
  Lemma shard_at s : (s < n)%nat -> exists si, nth_error (ix_shards ix) s = Some si.
  Proof. intros L. destruct (nth_error (ix_shards ix) s) eqn:E; eauto. apply nth_error_None in E. lia. Qed.
  Lemma shard_at_lt s si : nth_error (ix_shards ix) s = Some si -> (s < n)%nat.
  Proof. intros E. rewrite <- Ln. apply nth_error_Some. congruence. Qed.
  Lemma perm_lt s si a : nth_error (ix_shards ix) s = Some si -> (a < num_slots)%nat -> (nth a (si_perm si) 0 < num_slots)%nat.
  Proof.
    intros E La. destruct (Pm si (nth_error_In _ _ E)) as [P _].
    assert (X : In (nth a (si_perm si) 0%nat) (si_perm si)) by (apply nth_In; rewrite (Permutation_length P), seq_length; exact La).
    eapply Permutation_in in X; [|exact P]. apply in_seq in X. lia.
  Qed.
  Lemma perm_inj s si a a' : nth_error (ix_shards ix) s = Some si -> (a < num_slots)%nat -> (a' < num_slots)%nat ->
    nth a (si_perm si) 0%nat = nth a' (si_perm si) 0%nat -> a = a'.
  Proof.
    intros E La La' Q. destruct (Pm si (nth_error_In _ _ E)) as [P _].
    assert (Lp : length (si_perm si) = num_slots) by (rewrite (Permutation_length P); apply seq_length).
    assert (Nd : NoDup (si_perm si)) by (eapply Permutation_NoDup; [symmetry; exact P|apply seq_NoDup]).
    apply (proj1 (NoDup_nth (si_perm si) 0%nat) Nd); try lia.
  Qed.
  Lemma perm_onto s si b : nth_error (ix_shards ix) s = Some si -> (b < num_slots)%nat -> exists a, (a < num_slots)%nat /\ nth a (si_perm si) 0%nat = b.
  Proof.
    intros E Lb. destruct (Pm si (nth_error_In _ _ E)) as [P _].
    assert (X : In b (si_perm si)) by (eapply Permutation_in; [symmetry; exact P|]; apply in_seq; lia).
    destruct (In_nth _ _ 0%nat X) as (a & La & Ea). exists a. split; [|exact Ea]. rewrite (Permutation_length P), seq_length in La. exact La.
  Qed.

  (** The number of slot [b] of shard [s]. *)
  Definition num (s b : nat) : N := N.of_nat b * N.of_nat n + N.of_nat s.
  Lemma num_back s b : (s < n)%nat -> (b < num_slots)%nat -> N.to_nat (num s b mod N.of_nat n) = s /\ N.to_nat (num s b / N.of_nat n mod 65536) = b /\
    num s b < N.of_nat n * 65536.
  Proof.
    intros A B. unfold num. unfold num_slots in B.
    assert (E1 : (N.of_nat b * N.of_nat n + N.of_nat s) mod N.of_nat n = N.of_nat s) by (rewrite N.add_comm, N.mod_add by lia; apply N.mod_small; lia).
    assert (E2 : (N.of_nat b * N.of_nat n + N.of_nat s) / N.of_nat n = N.of_nat b) by (rewrite N.add_comm, N.div_add by lia; rewrite N.div_small by lia; lia).
    rewrite E1, E2. rewrite N.mod_small by lia. split; [lia|]. split; [lia|].
    assert (N.of_nat b * N.of_nat n <= 65535 * N.of_nat n) by (apply N.mul_le_mono_r; lia). lia.
  Qed.
  Lemma num_inj s b s' b' : (s < n)%nat -> (b < num_slots)%nat -> (s' < n)%nat -> (b' < num_slots)%nat -> num s b = num s' b' -> s = s' /\ b = b'.
  Proof.
    intros A B A' B' E. destruct (num_back s b A B) as (X & Y & _). destruct (num_back s' b' A' B') as (X' & Y' & _). rewrite E in *. split; congruence.
  Qed.
  Lemma num_onto blot : blot < N.of_nat n * 65536 -> exists s b, (s < n)%nat /\ (b < num_slots)%nat /\ blot = num s b.
  Proof.
    intros L. exists (N.to_nat (blot mod N.of_nat n)), (N.to_nat (blot / N.of_nat n)).
    assert (X : blot mod N.of_nat n < N.of_nat n) by (apply N.mod_lt; lia).
    assert (Y : blot / N.of_nat n < 65536) by (apply N.div_lt_upper_bound; lia).
    split; [lia|]. split; [unfold num_slots; lia|]. unfold num. rewrite !N2Nat.id, N.mul_comm. apply N.div_mod. lia.
  Qed.

  (** What Get reads in a slot. *)
  Definition got (si : shard_index) (b : nat) : result docs :=
    get_loop grow ix fuel false (si_file si) (new_posts (nth b (si_heads si) (-1)%Z)) None.
  Lemma get_got s si b : nth_error (ix_shards ix) s = Some si -> (b < num_slots)%nat -> query_get grow ix fuel (num s b) None = got si b.
  Proof.
    intros E Lb. unfold query_get, get_address. rewrite n_u32. destruct (N.eqb_spec (N.of_nat n) 0); [lia|]. cbn [bind].
    destruct (num_back s b) as (A & B & _); [eapply shard_at_lt, E|exact Lb|]. unfold u16. rewrite A, E, B. reflexivity.
  Qed.
  Lemma fill_number s b : (s < n)%nat -> (b < num_slots)%nat -> fill_blot_id (N.of_nat n) (N.of_nat s) (u32 (N.of_nat b)) = num s b.
  Proof.
    intros Ls Lb. destruct (num_back s b Ls Lb) as (_ & _ & B). unfold num in *.
    assert (Lb' : N.of_nat b < 65536) by (unfold num_slots in Lb; lia).
    assert (X : N.of_nat n * 65536 < 4294967296) by lia.
    unfold fill_blot_id, add32, u32. rewrite (N.mod_small (N.of_nat b)) by lia. rewrite (N.mod_small (N.of_nat b * N.of_nat n)) by lia. apply N.mod_small. lia.
  Qed.

  Definition inside (m : nat) (dst : list blot_entry) : Prop := forall j e, (m <= j)%nat -> nth_error dst j = Some e -> be_docs e = None.
  Lemma inside_upd m e dst : inside m dst -> be_docs e = None -> inside m (upd m e dst).
  Proof.
    intros H E j x Lj Ex. rewrite nth_error_upd in Ex. destruct (Nat.eqb_spec m j).
    - destruct (nth_error dst j); inv Ex. exact E.
    - eapply H; [|exact Ex]. lia.
  Qed.
  Lemma inside_upd_S m e dst : inside m dst -> inside (S m) (upd m e dst).
  Proof. intros H j x Lj Ex. rewrite nth_error_upd in Ex. destruct (Nat.eqb_spec m j); [lia|]. eapply H; [|exact Ex]. lia. Qed.

  Lemma max_lt q : length (q_states q) = n -> q_i (set_max q) < N.of_nat n.
  Proof.
    intros L. unfold set_max. cbn [q_i].
    destruct (set_max_loop_spec (q_states q) 0 0 0) as [(E & A)|(j & rs & E & Ej & Lt & A)]; cbv zeta in *; rewrite E; [lia|].
    assert (Lj : (j < n)%nat) by (rewrite <- L; apply nth_error_Some; congruence). lia.
  Qed.
  Lemma max_max q : length (q_states q) = n -> forall s rs, nth_error (q_states q) s = Some (Some rs) -> rs_total rs = 0 \/
    exists rs', nth_error (q_states q) (N.to_nat (q_i (set_max q))) = Some (Some rs') /\ rs_total rs <= rs_total rs'.
  Proof.
    intros L s rs Hs. unfold set_max. cbn [q_i].
    destruct (set_max_loop_spec (q_states q) 0 0 0) as [(E & A)|(j & rs' & E & Ej & Lt & A)]; cbv zeta in *; rewrite E.
    - left. specialize (A s rs Hs). lia.
    - right. exists rs'. replace (N.to_nat (0 + N.of_nat j)) with j by lia. split; [exact Ej|]. apply (A s rs Hs).
  Qed.

  (** What [advance] makes of the states. *)
  Lemma advance_is q p si rs q' : nth_error (ix_shards ix) p = Some si -> (rs_at rs < num_slots)%nat -> advance ix q rs p = Ok q' ->
    exists v, q' = set_max (MkQ (upd p (option_map (read_state_at si) v) (q_states q)) (q_i q) (q_n q) (q_nil q)) /\
      (forall a', v = Some a' -> a' = S (rs_at rs) /\ (a' < num_slots)%nat) /\
      (rs_total rs <= 1 -> v = None) /\ (v = None -> rs_total rs <= 1 \/ S (rs_at rs) = num_slots).
  Proof.
    intros E La Q. unfold advance in Q. rewrite E in Q.
    destruct (N.eqb_spec (N.of_nat (rs_at rs)) 65535) as [E1|E1].
    - cbn [bind] in Q. inversion Q. exists None. split; [reflexivity|]. split; [discriminate|]. split; [reflexivity|]. intros _. right. unfold num_slots. lia.
    - destruct (N.leb_spec (rs_total rs) 1) as [E2|E2].
      + cbn [bind] in Q. inversion Q. exists None. split; [reflexivity|]. split; [discriminate|]. split; [reflexivity|]. intros _. left. exact E2.
      + cbn [bind] in Q. inversion Q. exists (Some (S (rs_at rs))). cbn [option_map]. rewrite Nat.add_1_r. split; [reflexivity|]. split; [|split; [lia|discriminate]].
        intros a' X. inv X. split; [reflexivity|]. unfold num_slots in *. lia.
  Qed.

  (** * Any index: the entries are what Get gives *)
  Definition states_ok (sts : list (option read_state)) : Prop := length sts = n /\
    forall s rs, nth_error sts s = Some (Some rs) -> exists si a, nth_error (ix_shards ix) s = Some si /\ (a < num_slots)%nat /\ rs = read_state_at si a.
  Definition told (e : blot_entry) : Prop :=
    be_blot e < N.of_nat n * 65536 /\ query_get grow ix fuel (be_blot e) None = Ok (be_docs e) /\ (2 <= docs_len (be_docs e))%nat.
  Definition BI (q : qstate) : Prop := q_n q = N.of_nat n /\ q_i q < N.of_nat n /\ states_ok (q_states q).

  Lemma upd_states p si v sts : nth_error (ix_shards ix) p = Some si -> (forall a, v = Some a -> (a < num_slots)%nat) ->
    length sts = n -> (forall s rs, s <> p -> nth_error sts s = Some (Some rs) -> exists si a, nth_error (ix_shards ix) s = Some si /\ (a < num_slots)%nat /\ rs = read_state_at si a) ->
    states_ok (upd p (option_map (read_state_at si) v) sts).
  Proof.
    intros Ep Hv L St. split; [rewrite upd_length; exact L|]. intros s rs E. rewrite nth_error_upd in E. destruct (Nat.eqb_spec p s) as [<-|Np]; [|apply St; [congruence|exact E]].
    destruct (nth_error sts p); [|discriminate]. destruct v as [a|]; inversion E. exists si, a. split; [exact Ep|]. split; [apply Hv; reflexivity|reflexivity].
  Qed.
  Lemma advance_BI q p rs q' : q_n q = N.of_nat n -> length (q_states q) = n -> (p < n)%nat -> (rs_at rs < num_slots)%nat ->
    (forall s rs, s <> p -> nth_error (q_states q) s = Some (Some rs) -> exists si a, nth_error (ix_shards ix) s = Some si /\ (a < num_slots)%nat /\ rs = read_state_at si a) ->
    advance ix q rs p = Ok q' -> BI q'.
  Proof.
    intros Hn L Lp La St E. destruct (shard_at p Lp) as [si Ep]. destruct (advance_is q p si rs q' Ep La E) as (v & -> & Hv & _).
    assert (X : states_ok (upd p (option_map (read_state_at si) v) (q_states q))) by (apply upd_states; [exact Ep|intros a Ha; apply (Hv a Ha)|exact L|exact St]).
    split; [exact Hn|]. split; [apply max_lt, X|exact X].
  Qed.
  Lemma start_BI : BI (start_query ix).
  Proof.
    unfold start_query. rewrite n_u32. 
    assert (X : states_ok (map (fun s => Some (read_state_at s 0)) (ix_shards ix))).
    { split; [rewrite map_length; exact Ln|]. intros s rs E. rewrite nth_error_map in E. destruct (nth_error (ix_shards ix) s) as [si|] eqn:Es; [|discriminate].
      inversion E. exists si, 0%nat. split; [reflexivity|]. split; [unfold num_slots; lia|reflexivity]. }
    split; [reflexivity|]. split; [apply max_lt, X|exact X].
  Qed.
  Lemma iter_BI r r' v : BI (r_q r) -> inside (r_n r) (r_dst r) -> Forall told (firstn (r_n r) (r_dst r)) -> next_iter grow ix fuel r = Ok (r', v) ->
    BI (r_q r') /\ inside (r_n r') (r_dst r') /\ Forall told (firstn (r_n r') (r_dst r')).
  Proof.
    intros (Hn & Hi & Hs) In_ To E. unfold next_iter in E. set (q := r_q r) in *.
    destruct (nth_error (r_dst r) (r_n r)) as [entry|] eqn:Ee; [|inversion E; subst; split; [split; [exact Hn|split; assumption]|split; assumption]].
    assert (Ld : (r_n r < length (r_dst r))%nat) by (apply nth_error_Some; congruence).
    pose proof (In_ _ _ (le_n _) Ee) as De. set (p := N.to_nat (q_i q)) in *. assert (Lp : (p < n)%nat) by (unfold p; lia).
    destruct Hs as [Ls Hs]. destruct (nth_error (q_states q) p) as [[rs|]|] eqn:Ep; [| |discriminate].
    - destruct (Hs p rs Ep) as (si & a & Esi & La & ->).
      unfold fill_blot in E. rewrite Esi, De in E. cbn [is_nil negb] in E. rewrite Hn in E.
      destruct (fill_loop _ _ _ _ _ _ _) as [[[ds ps] eof]| | |] eqn:Ef; cbn [bind] in E; try discriminate.
      destruct (fill_is_get _ _ _ _ _ _ _ _ _ Ef) as [-> G].
      change (get_loop grow ix fuel false (si_file si) (rs_posts (read_state_at si a)) None) with (got si (nth a (si_perm si) 0%nat)) in G.
      match type of E with context [advance ix ?q0 ?r0 p] => destruct (advance ix q0 r0 p) as [q1| | |] eqn:Ad1 end; cbn [bind] in E; try discriminate.
      cbn [be_docs be_blot] in E.
      assert (Lb : (nth a (si_perm si) 0 < num_slots)%nat) by (eapply perm_lt; eassumption).
      assert (Nu : fill_blot_id (N.of_nat n) (q_i q) (u32 (N.of_nat (rs_blot (read_state_at si a)))) = num p (nth a (si_perm si) 0%nat)).
      { rewrite <- fill_number by assumption. unfold p. rewrite N2Nat.id. reflexivity. }
      rewrite Nu in E.
      assert (B1 : BI q1).
      { apply (advance_BI _ p _ q1) in Ad1; cbn [q_n q_states rs_at] in *; [exact Ad1|reflexivity|rewrite upd_length; exact Ls|exact Lp|exact La|].
        intros s r0 Ns Er. rewrite nth_error_upd_ne in Er by congruence. exact (Hs s r0 Er). }
      destruct (Nat.leb_spec (docs_len ds) 1) as [Lx|Lx].
      + match type of E with context [advance ix q1 ?r0 ?p0] => destruct (advance ix q1 r0 p0) as [q2| | |] eqn:Ad2 end; cbn [bind] in E; try discriminate.
        inversion E. subst r' v. cbn [r_q r_dst r_n]. destruct B1 as (Bn & Bi & Bs & Bt). split; [|split].
        * apply (advance_BI _ _ _ q2) in Ad2; [exact Ad2|exact Bn|exact Bs|lia|exact La|intros s r0 _ Er; exact (Bt s r0 Er)].
        * apply inside_upd; [exact In_|reflexivity].
        * rewrite firstn_upd_le by lia. exact To.
      + inversion E. subst r' v. cbn [r_q r_dst r_n]. split; [exact B1|]. split; [apply inside_upd_S, In_|].
        rewrite firstn_upd_S by exact Ld. apply Forall_app. split; [exact To|]. constructor; [|constructor]. unfold told. cbn [be_blot be_docs].
        split; [apply num_back; assumption|]. split; [rewrite (get_got p si) by assumption; exact G|lia].
    - assert (Hs' : states_ok (q_states q)) by (split; assumption).
      destruct (N.eqb_spec (u32 (q_nil q + 1)) (q_n q)) as [En|En]; inversion E; subst r' v; cbn [r_q r_dst r_n]; split; try (split; assumption).
      + split; [exact Hn|]. split; [exact Hi|exact Hs'].
      + split; [exact Hn|]. split; [|exact Hs']. cbn [q_i q_n]. rewrite Hn. unfold u32.
        rewrite (N.mod_small (q_i q + 1)) by lia. destruct (N.eqb_spec (q_i q + 1) (N.of_nat n)); lia.
  Qed.
  Lemma loop_BI : forall k r r' eof, BI (r_q r) -> inside (r_n r) (r_dst r) -> Forall told (firstn (r_n r) (r_dst r)) -> next_loop grow ix fuel k r = Ok (r', eof) ->
    BI (r_q r') /\ Forall told (firstn (r_n r') (r_dst r')).
  Proof.
    induction k as [|k IH]; intros r r' eof B In_ To E; cbn [next_loop] in E; [discriminate|].
    destruct (next_iter grow ix fuel r) as [[r1 v]| | |] eqn:Ei; cbn [bind] in E; try discriminate.
    destruct (iter_BI r r1 v B In_ To Ei) as (B1 & I1 & T1). destruct v; [exact (IH _ _ _ B1 I1 T1 E)| |]; inversion E; subst; split; assumption.
  Qed.
  Lemma unlimited_inside dst : unlimited dst -> inside 0 dst.
  Proof. intros U j e _ E. unfold unlimited in U. rewrite Forall_forall in U. apply U. eapply nth_error_In, E. Qed.
  Theorem queried_told q out : queried grow ix fuel unlimited q out -> BI q /\ Forall told out.
  Proof.
    induction 1 as [|q out dst k r eof Q [B T] U E]; [split; [exact start_BI|constructor]|].
    destruct (loop_BI k (MkRun q dst 0) _ _ B (unlimited_inside _ U) ltac:(constructor) E) as [B1 T1]. split; [exact B1|]. apply Forall_app. split; assumption.
  Qed.

  (** * An index without lists that are shorter than the table says *)
  Definition count (si : shard_index) (b : nat) : N := nth b (si_counts si) 0.
  Hypothesis Ns : forall s si b ds, nth_error (ix_shards ix) s = Some si -> (b < num_slots)%nat -> 2 <= count si b -> got si b = Ok ds -> (2 <= docs_len ds)%nat.

  (** [h s]: how far shard [s] has come, None when it has been left. *)
  Record AI (q : qstate) (h : nat -> option nat) (out : list blot_entry) : Prop := {
    ai_n : q_n q = N.of_nat n;
    ai_i : q_i q < N.of_nat n;
    ai_len : length (q_states q) = n;
    ai_st : forall s si, nth_error (ix_shards ix) s = Some si -> nth_error (q_states q) s = Some (option_map (read_state_at si) (h s));
    ai_h : forall s a, (s < n)%nat -> h s = Some a -> (a < num_slots)%nat;
    ai_max : forall s rs, nth_error (q_states q) s = Some (Some rs) -> rs_total rs = 0 \/
      exists rs', nth_error (q_states q) (N.to_nat (q_i q)) = Some (Some rs') /\ rs_total rs <= rs_total rs';
    ai_done : forall s si j, nth_error (ix_shards ix) s = Some si -> (j < num_slots)%nat -> 2 <= count si (nth j (si_perm si) 0%nat) ->
      (forall a, h s = Some a -> (j < a)%nat) -> In (num s (nth j (si_perm si) 0%nat)) (map be_blot out);
    ai_out : forall e, In e out -> exists s si j, nth_error (ix_shards ix) s = Some si /\ (j < num_slots)%nat /\ (forall a, h s = Some a -> (j < a)%nat) /\
      be_blot e = num s (nth j (si_perm si) 0%nat);
    ai_nodup : NoDup (map be_blot out) }.

  Lemma start_AI : AI (start_query ix) (fun _ => Some 0%nat) [].
  Proof.
    unfold start_query. rewrite n_u32. set (q0 := MkQ (map (fun s => Some (read_state_at s 0)) (ix_shards ix)) 0 (N.of_nat n) 0).
    assert (L0 : length (q_states q0) = n) by (unfold q0; cbn [q_states]; rewrite map_length; exact Ln).
    constructor.
    - reflexivity.
    - apply max_lt, L0.
    - exact L0.
    - intros s si E. unfold set_max, q0. cbn [q_states option_map]. rewrite nth_error_map, E. reflexivity.
    - intros s a _ E. inv E. unfold num_slots. lia.
    - exact (max_max q0 L0).
    - intros s si j _ _ _ C. specialize (C _ eq_refl). lia.
    - intros e [].
    - constructor.
  Qed.
  Lemma count_le s si i j : nth_error (ix_shards ix) s = Some si -> (i <= j < num_slots)%nat -> count si (nth j (si_perm si) 0%nat) <= count si (nth i (si_perm si) 0%nat).
  Proof. intros E L. destruct (Pm si (nth_error_In _ _ E)) as [_ Srt]. apply Srt, L. Qed.

  (** A shard has moved on. *)
  Lemma move_AI q h out p a si v sts i nil more :
    AI q h out -> nth_error (ix_shards ix) p = Some si -> h p = Some a ->
    length sts = n -> (forall s, s <> p -> nth_error sts s = nth_error (q_states q) s) ->
    (forall a', v = Some a' -> a' = S a /\ (a' < num_slots)%nat) ->
    (v = None -> count si (nth a (si_perm si) 0%nat) <= 1 \/ S a = num_slots) ->
    (more = [] /\ count si (nth a (si_perm si) 0%nat) <= 1 \/ exists e, more = [e] /\ be_blot e = num p (nth a (si_perm si) 0%nat)) ->
    AI (set_max (MkQ (upd p (option_map (read_state_at si) v) sts) i (q_n q) nil)) (hset h p v) (out ++ more).
  Proof.
    intros A Ep Hp Ls St V1 V2 Mo. pose proof (shard_at_lt _ _ Ep) as Lp. pose proof (ai_h _ _ _ A p a Lp Hp) as La.
    set (q1 := MkQ (upd p (option_map (read_state_at si) v) sts) i (q_n q) nil).
    assert (L1 : length (q_states q1) = n) by (unfold q1; cbn [q_states]; rewrite upd_length; exact Ls).
    constructor.
    - exact (ai_n _ _ _ A).
    - apply max_lt, L1.
    - exact L1.
    - intros s sj Es. unfold set_max, q1. cbn [q_states]. rewrite nth_error_upd. unfold hset.
      destruct (Nat.eqb_spec p s) as [<-|Np].
      + assert (Lt : (p < length sts)%nat) by lia. apply nth_error_Some in Lt. destruct (nth_error sts p); [|congruence].
        rewrite Nat.eqb_refl. assert (sj = si) as -> by congruence. reflexivity.
      + destruct (Nat.eqb_spec s p); [congruence|]. rewrite St by congruence. apply (ai_st _ _ _ A s sj Es).
    - intros s b Lb Hb. unfold hset in Hb. destruct (Nat.eqb_spec s p); [apply V1, Hb|]. exact (ai_h _ _ _ A s b Lb Hb).
    - exact (max_max q1 L1).
    - intros s sj j Es Lj C2 Hj. unfold hset in Hj. rewrite map_app, in_app_iff.
      destruct (Nat.eqb_spec s p) as [->|Np]; [|left; exact (ai_done _ _ _ A s sj j Es Lj C2 Hj)].
      assert (sj = si) as -> by congruence. destruct (Nat.eq_dec j a) as [->|Na].
      + destruct Mo as [[-> D]|(e & -> & Be)]; [lia|right; left; exact Be].
      + assert (Lja : (j < a)%nat).
        { destruct v as [a'|]; [destruct (V1 a' eq_refl) as [-> _]; specialize (Hj _ eq_refl); lia|].
          destruct (Nat.lt_ge_cases j a); [assumption|]. pose proof (count_le p si a j Es ltac:(lia)). destruct (V2 eq_refl); lia. }
        left. apply (ai_done _ _ _ A p si j Es Lj C2). intros x Hx. assert (x = a) as -> by congruence. exact Lja.
    - intros e He. apply in_app_or in He. destruct He as [He|He].
      + destruct (ai_out _ _ _ A e He) as (s & sj & j & Es & Lj & Hj & X). exists s, sj, j. split; [exact Es|]. split; [exact Lj|]. split; [|exact X].
        intros b Hb. unfold hset in Hb. destruct (Nat.eqb_spec s p) as [->|Np]; [|apply Hj, Hb]. destruct (V1 _ Hb) as [-> _]. specialize (Hj _ Hp). lia.
      + destruct Mo as [[-> _]|(x & -> & X)]; [destruct He|]. destruct He as [->|[]]. exists p, si, a. split; [exact Ep|]. split; [exact La|]. split; [|exact X].
        intros b Hb. unfold hset in Hb. rewrite Nat.eqb_refl in Hb. destruct (V1 _ Hb) as [-> _]. lia.
    - rewrite map_app. destruct Mo as [[-> _]|(x & -> & Bx)]; [cbn [map]; rewrite app_nil_r; exact (ai_nodup _ _ _ A)|]. cbn [map].
      eapply Permutation_NoDup; [apply Permutation_cons_append|]. constructor; [|exact (ai_nodup _ _ _ A)].
      intros I. apply in_map_iff in I. destruct I as (e & Be & He). destruct (ai_out _ _ _ A e He) as (s & sj & j & Es & Lj & Hj & X).
      rewrite X, Bx in Be. apply num_inj in Be; [|eapply shard_at_lt, Es|eapply perm_lt; eassumption|exact Lp|eapply perm_lt; eassumption].
      destruct Be as [-> Be]. assert (sj = si) as -> by congruence. specialize (Hj _ Hp). assert (j = a) by (eapply perm_inj; eassumption). lia.
  Qed.
  (** A shard is left although it had not been read. *)
  Lemma leave_AI q h out p si : AI q h out -> nth_error (ix_shards ix) p = Some si ->
    (forall a, h p = Some a -> count si (nth a (si_perm si) 0%nat) <= 1) -> forall i nil,
    AI (set_max (MkQ (upd p None (q_states q)) i (q_n q) nil)) (hset h p None) out.
  Proof.
    intros A Ep C i nil. destruct (h p) as [a|] eqn:Hp.
    - pose proof (move_AI q h out p a si None (q_states q) i nil [] A Ep Hp (ai_len _ _ _ A) ltac:(reflexivity) ltac:(discriminate)) as M. rewrite app_nil_r in M.
      apply M; [intros _; left; apply C; reflexivity|]. left. split; [reflexivity|apply C; reflexivity].
    - assert (Eu : upd p None (q_states q) = q_states q).
      { pose proof (ai_st _ _ _ A p si Ep) as X. rewrite Hp in X. cbn [option_map] in X. clear -X. revert p X.
        induction (q_states q) as [|o l IH]; intros [|p] X; cbn [nth_error upd] in *; try discriminate; [congruence|]. rewrite IH by exact X. reflexivity. }
      rewrite Eu. set (q1 := MkQ (q_states q) i (q_n q) nil).
      assert (Eh : forall s, hset h p None s = h s) by (intros s; unfold hset; destruct (Nat.eqb_spec s p) as [->|]; [congruence|reflexivity]).
      destruct A. constructor; try assumption.
      + apply (max_lt q1). assumption.
      + intros s sj Es. rewrite Eh. auto.
      + intros s b Lb Hb. rewrite Eh in Hb. eauto.
      + apply (max_max q1). assumption.
      + intros s sj j Es Lj C2 Hj. eapply ai_done0; eauto. intros b Hb. apply Hj. rewrite Eh. exact Hb.
      + intros e He. destruct (ai_out0 e He) as (s & sj & j & Es & Lj & Hj & X). exists s, sj, j. split; [exact Es|]. split; [exact Lj|]. split; [|exact X]. intros b Hb. apply Hj. rewrite <- Eh. exact Hb.
  Qed.

  Lemma iter_AI r h out r' v : AI (r_q r) h (out ++ firstn (r_n r) (r_dst r)) -> inside (r_n r) (r_dst r) ->
    next_iter grow ix fuel r = Ok (r', v) ->
    exists h', AI (r_q r') h' (out ++ firstn (r_n r') (r_dst r')) /\ inside (r_n r') (r_dst r') /\
      (v = ReturnEOF -> firstn (r_n r') (r_dst r') = [] /\ forall s rs, nth_error (q_states (r_q r')) s = Some (Some rs) -> rs_total rs = 0).
  Proof.
    intros A In_ E. unfold next_iter in E. set (q := r_q r) in *.
    destruct (nth_error (r_dst r) (r_n r)) as [entry|] eqn:Ee.
    2:{ inversion E. subst. exists h. split; [exact A|]. split; [exact In_|]. discriminate. }
    assert (Ld : (r_n r < length (r_dst r))%nat) by (apply nth_error_Some; congruence).
    pose proof (In_ _ _ (le_n _) Ee) as De. set (p := N.to_nat (q_i q)) in *.
    assert (Lp : (p < n)%nat) by (pose proof (ai_i _ _ _ A); unfold p; lia).
    destruct (shard_at p Lp) as [si Esi]. pose proof (ai_st _ _ _ A p si Esi) as Stp. rewrite Stp in E.
    destruct (h p) as [a|] eqn:Ha; cbn [option_map] in E, Stp.
    - pose proof (ai_h _ _ _ A p a Lp Ha) as La.
      unfold fill_blot in E. rewrite Esi, De in E. cbn [is_nil negb] in E. rewrite (ai_n _ _ _ A) in E.
      destruct (fill_loop _ _ _ _ _ _ _) as [[[ds ps] eof]| | |] eqn:Ef; cbn [bind] in E; try discriminate.
      destruct (fill_is_get _ _ _ _ _ _ _ _ _ Ef) as [-> G].
      change (get_loop grow ix fuel false (si_file si) (rs_posts (read_state_at si a)) None) with (got si (nth a (si_perm si) 0%nat)) in G.
      match type of E with context [advance ix ?q0 ?r0 p] => destruct (advance ix q0 r0 p) as [q1| | |] eqn:Ad1 end; cbn [bind] in E; try discriminate.
      cbn [be_docs be_blot] in E.
      assert (Lb : (nth a (si_perm si) 0 < num_slots)%nat) by (eapply perm_lt; eassumption).
      assert (Nu : fill_blot_id (N.of_nat n) (q_i q) (u32 (N.of_nat (rs_blot (read_state_at si a)))) = num p (nth a (si_perm si) 0%nat)).
      { rewrite <- fill_number by assumption. unfold p. rewrite N2Nat.id. reflexivity. }
      rewrite Nu in E. clear Nu.
      apply (advance_is _ p si _ q1 Esi) in Ad1; [|exact La]. destruct Ad1 as (v1 & -> & V1 & V2 & V3). cbn [q_states q_i q_n q_nil rs_at rs_total] in *.
      rewrite <- (ai_n _ _ _ A) in E.
      match type of E with context [upd p (option_map _ v1) ?x] => set (sts := x) in * end.
      assert (Ls : length sts = n) by (unfold sts; rewrite upd_length; exact (ai_len _ _ _ A)).
      assert (St : forall s, s <> p -> nth_error sts s = nth_error (q_states q) s) by (intros s Hs; unfold sts; apply nth_error_upd_ne; congruence).
      pose proof (fun more => move_AI q h (out ++ firstn (r_n r) (r_dst r)) p a si v1 sts (q_i q) (q_nil q) more A Esi Ha Ls St V1 V3) as Mv. clearbody sts.
      destruct (Nat.leb_spec (docs_len ds) 1) as [Lx|Lx].
      + assert (Cs : count si (nth a (si_perm si) 0%nat) <= 1).
        { destruct (N.le_gt_cases (count si (nth a (si_perm si) 0%nat)) 1) as [X|X]; [exact X|]. specialize (Ns p si _ ds Esi Lb ltac:(lia) G). lia. }
        specialize (Mv [] (or_introl (conj eq_refl Cs))). rewrite app_nil_r in Mv. rewrite (V2 Cs) in *. cbn [option_map] in *.
        match type of Mv with AI ?x _ _ => set (q1 := x) in * end.
        match type of E with context [advance ix q1 ?r0 ?p0] => destruct (advance ix q1 r0 p0) as [q2| | |] eqn:Ad2 end; cbn [bind] in E; try discriminate.
        inversion E. subst r' v. cbn [r_q r_dst r_n]. set (p2 := N.to_nat (q_i q1)) in *.
        assert (L2 : (p2 < n)%nat) by (pose proof (ai_i _ _ _ Mv); unfold p2; lia). destruct (shard_at p2 L2) as [s2 Es2].
        apply (advance_is q1 p2 s2 _ q2 Es2) in Ad2; [|exact La]. destruct Ad2 as (v2 & -> & _ & W2 & _). rewrite (W2 Cs). cbn [option_map].
        exists (hset (hset h p None) p2 None). rewrite firstn_upd_le by lia. split; [|split; [apply inside_upd; [exact In_|reflexivity]|discriminate]].
        apply (leave_AI q1 _ _ p2 s2 Mv Es2). intros b Hb. unfold hset in Hb. destruct (Nat.eqb_spec p2 p) as [|Np]; [discriminate|].
        pose proof (ai_st _ _ _ A p2 s2 Es2) as X. rewrite Hb in X. cbn [option_map] in X.
        destruct (ai_max _ _ _ A p2 _ X) as [Z|(rs' & Z & Le)]; [change (count s2 (nth b (si_perm s2) 0%nat) = 0) in Z; lia|].
        fold p in Z. assert (rs' = read_state_at si a) as -> by congruence.
        change (count s2 (nth b (si_perm s2) 0%nat) <= count si (nth a (si_perm si) 0%nat)) in Le. lia.
      + inversion E. subst r' v. cbn [r_q r_dst r_n]. exists (hset h p v1). split; [|split; [apply inside_upd_S, In_|discriminate]].
        rewrite firstn_upd_S by exact Ld. specialize (Mv [MkEntry (num p (nth a (si_perm si) 0%nat)) ds]). rewrite <- app_assoc in Mv. apply Mv.
        right. eexists. split; reflexivity.
    - destruct (N.eqb_spec (u32 (q_nil q + 1)) (q_n q)) as [En|En].
      + inversion E. subst r' v. cbn [r_q r_dst r_n].
        assert (A' : AI (MkQ (q_states q) (q_i q) (q_n q) (u32 (q_nil q + 1))) h (out ++ firstn (r_n r) (r_dst r))) by (destruct A; constructor; assumption).
        exists h. split; [exact A'|]. split; [exact In_|]. destruct (Nat.eqb_spec (r_n r) 0) as [Z|Z]; [|discriminate]. intros _.
        split; [rewrite Z; reflexivity|]. intros s rs Hs. destruct (ai_max _ _ _ A s rs Hs) as [X|(rs' & X & _)]; [exact X|]. fold p in X. congruence.
      + inversion E. subst r' v. cbn [r_q r_dst r_n]. exists h. split; [|split; [exact In_|discriminate]].
        assert (Az : forall s rs, nth_error (q_states q) s = Some (Some rs) -> rs_total rs = 0) by (intros s rs Hs; destruct (ai_max _ _ _ A s rs Hs) as [X|(rs' & X & _)]; [exact X|fold p in X; congruence]).
        pose proof (ai_n _ _ _ A) as An. pose proof (ai_i _ _ _ A) as Ai. destruct A. constructor; cbn [q_states q_i q_n q_nil]; try assumption; [|intros s rs Hs; left; eapply Az, Hs].
        rewrite An. unfold u32. rewrite (N.mod_small (q_i q + 1)) by lia. destruct (N.eqb_spec (q_i q + 1) (N.of_nat n)); lia.
  Qed.
  Lemma loop_AI out : forall k r h r' eof, AI (r_q r) h (out ++ firstn (r_n r) (r_dst r)) -> inside (r_n r) (r_dst r) -> next_loop grow ix fuel k r = Ok (r', eof) ->
    exists h', AI (r_q r') h' (out ++ firstn (r_n r') (r_dst r')) /\
      (eof = true -> firstn (r_n r') (r_dst r') = [] /\ forall s rs, nth_error (q_states (r_q r')) s = Some (Some rs) -> rs_total rs = 0).
  Proof.
    induction k as [|k IH]; intros r h r' eof A In_ E; cbn [next_loop] in E; [discriminate|].
    destruct (next_iter grow ix fuel r) as [[r1 v]| | |] eqn:Ei; cbn [bind] in E; try discriminate.
    destruct (iter_AI r h out r1 v A In_ Ei) as (h1 & A1 & I1 & Z1).
    destruct v; [exact (IH _ _ _ _ A1 I1 E)| |]; inversion E; subst; exists h1; (split; [exact A1|]); [discriminate|intros _; apply Z1; reflexivity].
  Qed.
  Lemma queried_AI q out : queried grow ix fuel unlimited q out -> exists h, AI q h out.
  Proof.
    induction 1 as [|q out dst k r eof Q [h A] U E]; [exists (fun _ => Some 0%nat); exact start_AI|].
    destruct (loop_AI out k (MkRun q dst 0) h r eof) as (h' & A' & _); cbn [r_q r_n r_dst firstn]; [rewrite app_nil_r; exact A|apply unlimited_inside, U|exact E|]. exists h'. exact A'.
  Qed.
  Theorem queried_once q out : queried grow ix fuel unlimited q out -> NoDup (map be_blot out).
  Proof. intros Q. destruct (queried_AI q out Q) as [h A]. exact (ai_nodup _ _ _ A). Qed.
  Theorem queried_all q out dst k r : queried grow ix fuel unlimited q out -> unlimited dst -> query_next grow ix fuel k q dst = Ok (r, true) ->
    forall s si b, nth_error (ix_shards ix) s = Some si -> (b < num_slots)%nat -> 2 <= count si b -> In (num s b) (map be_blot out).
  Proof.
    intros Q U E s si b Es Lb C. destruct (queried_AI q out Q) as [h A].
    destruct (loop_AI out k (MkRun q dst 0) h r true) as (h' & A' & Z); cbn [r_q r_n r_dst firstn]; [rewrite app_nil_r; exact A|apply unlimited_inside, U|exact E|].
    destruct (Z eq_refl) as [Z1 Z2]. rewrite Z1, app_nil_r in A'. destruct (perm_onto s si b Es Lb) as (j & Lj & <-).
    apply (ai_done _ _ _ A' s si j Es Lj C). intros a Ha.
    pose proof (ai_st _ _ _ A' s si Es) as X. rewrite Ha in X. cbn [option_map] in X. specialize (Z2 s _ X). change (count si (nth a (si_perm si) 0%nat) = 0) in Z2.
    pose proof (ai_h _ _ _ A' s a (shard_at_lt _ _ Es) Ha) as La. destruct (Nat.lt_ge_cases j a) as [|G]; [assumption|]. pose proof (count_le s si a j Es ltac:(lia)). lia.
  Qed.
End A.
