(** Goroutines that share a Query. *)
From Coq Require Import Lia.
From Verif Require Import Model.Base Model.Address Model.Varint Model.Post Model.Poster Model.Shard Model.Dmd Model.Fnames Model.Index Model.Query Model.NextRace.
From Verif Require Import Spec.Reading Spec.Querying Proof.Tactics Proof.QueryP Proof.QueryP2 Proof.PathRaceP.
Local Open Scope N_scope.

Definition sh_ok (h : shared) : Prop :=
  (forall i p, nth_error (h_ptrs h) i = Some (Some p) -> (p < length (h_states h))%nat) /\
  (forall i j p, nth_error (h_ptrs h) i = Some (Some p) -> nth_error (h_ptrs h) j = Some (Some p) -> i = j).
Lemma share_at q : forall i, nth_error (h_ptrs (share q)) i = option_map (option_map (fun _ => i)) (nth_error (q_states q) i).
Proof.
  intros i. cbn [share h_ptrs]. rewrite nth_error_map. generalize (q_states q) as l. clear q. 
  assert (H : forall (l : list (option read_state)) a i, nth_error (combine (seq a (length l)) l) i = option_map (fun o => (a + i, o)%nat) (nth_error l i)).
  { induction l as [|o l IH]; intros a [|j]; cbn [length seq combine nth_error option_map]; try reflexivity; [rewrite Nat.add_0_r; reflexivity|]. rewrite IH. replace (S a + j)%nat with (a + S j)%nat by lia. reflexivity. }
  intros l. rewrite H. destruct (nth_error l i) as [o|]; reflexivity.
Qed.
Lemma share_ok q : sh_ok (share q).
Proof.
  split.
  - intros i p E. rewrite share_at in E. destruct (nth_error (q_states q) i) as [[r|]|] eqn:Ei; try discriminate. cbn [option_map] in E. assert (p = i) as -> by congruence.
    cbn [share h_states]. rewrite map_length. apply nth_error_Some. congruence.
  - intros i j p E1 E2. rewrite share_at in E1, E2. destruct (nth_error (q_states q) i) as [[r|]|]; try discriminate. destruct (nth_error (q_states q) j) as [[r'|]|]; try discriminate. cbn [option_map] in *. congruence.
Qed.
Lemma share_state q : qstate_of (share q) = q.
Proof.
  destruct q as [ss i n nl]. unfold qstate_of. cbn [share h_i h_n h_nil]. f_equal. apply nth_error_ext. intros j. rewrite nth_error_map.
  rewrite (share_at (MkQ ss i n nl) j). cbn [q_states]. destruct (nth_error ss j) as [[r|]|] eqn:Ej; cbn [option_map]; try reflexivity.
  f_equal. f_equal. cbn [share h_states q_states]. apply nth_error_nth. rewrite nth_error_map, Ej. reflexivity.
Qed.
Section Race.
  Variable grow : nat -> nat.
  Variable ix : index.
  Notation next_step := (next_step grow ix).
  Notation next_race := (next_race grow ix).
  Notation move_on := (move_on ix).
  Fixpoint solo (k : nat) (h : shared) (g : iterating) : shared * iterating :=
    match k with O => (h, g) | S k => let '(h', g') := next_step h g in solo k h' g' end.
  Lemma solo_add a : forall b h g, solo (a + b) h g = let '(h', g') := solo a h g in solo b h' g'.
  Proof. induction a as [|a IH]; intros b h g; cbn [Nat.add solo]; [reflexivity|]. destruct (next_step h g) as [h' g']. apply IH. Qed.
  Lemma nrace_app s1 : forall s2 h gs, next_race (s1 ++ s2) h gs = let '(h', gs') := next_race s1 h gs in next_race s2 h' gs'.
  Proof.
    induction s1 as [|i s1 IH]; intros s2 h gs; cbn [app NextRace.next_race]; [reflexivity|]. destruct (nth_error gs i) as [g|]; [|apply IH]. destruct (next_step h g) as [h' g']. apply IH.
  Qed.
  Lemma upd_again {A} (x y : A) : forall l i, upd i x (upd i y l) = upd i x l.
  Proof. induction l as [|a l IH]; intros [|i]; cbn [upd]; try reflexivity. f_equal. apply IH. Qed.
  Lemma nrace_solo k : forall i h gs g, nth_error gs i = Some g -> next_race (repeat i k) h gs = let '(h', g') := solo k h g in (h', upd i g' gs).
  Proof.
    induction k as [|k IH]; intros i h gs g E; cbn [repeat NextRace.next_race solo].
    - rewrite upd_id by exact E. reflexivity.
    - rewrite E. destruct (next_step h g) as [h1 g1]. assert (Li : (i < length gs)%nat) by (apply nth_error_Some; congruence).
      rewrite (IH i h1 (upd i g1 gs) g1 (nth_error_upd_eq _ _ _ Li)). destruct (solo k h1 g1) as [h2 g2]. rewrite upd_again. reflexivity.
  Qed.

  Lemma move_on_sim h src src' pos q' : sh_ok h -> rs_at src = rs_at src' -> rs_total src = rs_total src' -> advance ix (qstate_of h) src pos = Ok q' ->
    exists h', move_on h src' pos = Ok h' /\ qstate_of h' = q' /\ sh_ok h' /\ (length (h_states h) <= length (h_states h'))%nat /\
      forall p, (p < length (h_states h))%nat -> nth p (h_states h') no_state = nth p (h_states h) no_state.
  Proof.
    intros [O1 O2] Ea Et. unfold advance, NextRace.move_on. rewrite <- Ea, <- Et.
    assert (Hn : let h1 := MkShared (h_states h) (upd pos None (h_ptrs h)) (h_i h) (h_n h) (h_nil h) in
      sh_ok h1 /\ q_states (qstate_of h1) = upd pos None (q_states (qstate_of h))).
    { cbn zeta. split; [|cbn [qstate_of q_states h_ptrs h_states]; rewrite map_upd; reflexivity]. split; cbn [h_ptrs h_states].
      - intros i p E. rewrite nth_error_upd in E. destruct (pos =? i)%nat; [destruct (nth_error (h_ptrs h) i); discriminate|]. exact (O1 i p E).
      - intros i j p E1 E2. rewrite nth_error_upd in E1, E2. destruct (pos =? i)%nat; [destruct (nth_error (h_ptrs h) i); discriminate|].
        destruct (pos =? j)%nat; [destruct (nth_error (h_ptrs h) j); discriminate|]. exact (O2 i j p E1 E2). }
    cbn zeta in Hn. destruct Hn as [On Qn]. set (hn := MkShared (h_states h) (upd pos None (h_ptrs h)) (h_i h) (h_n h) (h_nil h)) in *.
    assert (Fin : forall h1, sh_ok h1 -> h_n h1 = h_n h -> h_nil h1 = h_nil h -> forall rs, q_states (qstate_of h1) = upd pos rs (q_states (qstate_of h)) ->
      let h2 := MkShared (h_states h1) (h_ptrs h1) (set_max_loop (q_states (qstate_of h1)) 0 0 0) (h_n h1) (h_nil h1) in
      qstate_of h2 = set_max (MkQ (upd pos rs (q_states (qstate_of h))) (q_i (qstate_of h)) (q_n (qstate_of h)) (q_nil (qstate_of h))) /\ sh_ok h2).
    { intros h1 Oh En El rs Eq. cbn zeta. split; [|exact Oh]. unfold set_max. cbn [q_states q_n q_nil]. rewrite <- Eq. cbn [qstate_of q_states q_i q_n q_nil h_states h_ptrs h_i h_n h_nil]. rewrite En, El. reflexivity. }
    destruct (N.of_nat (rs_at src) =? 65535); [|destruct (rs_total src <=? 1)]; cbn [bind].
    1,2: intros E; destruct (Fin hn On eq_refl eq_refl None Qn) as [F1 F2]; eexists; split; [reflexivity|]; split; [rewrite F1; congruence|]; split; [exact F2|]; split; [apply le_n|reflexivity].
    destruct (nth_error (ix_shards ix) pos) as [s|]; cbn [bind]; [|discriminate]. intros E.
    set (h1 := MkShared (h_states h ++ [read_state_at s (rs_at src + 1)]) (upd pos (Some (length (h_states h))) (h_ptrs h)) (h_i h) (h_n h) (h_nil h)).
    assert (Oh : sh_ok h1).
    { split; cbn [h1 h_ptrs h_states].
      - intros i p E1. rewrite app_length. cbn [length]. rewrite nth_error_upd in E1. destruct (pos =? i)%nat; [destruct (nth_error (h_ptrs h) i); [|discriminate]; assert (p = length (h_states h)) by congruence; lia|]. specialize (O1 i p E1). lia.
      - intros i j p E1 E2. rewrite nth_error_upd in E1, E2. destruct (pos =? i)%nat eqn:Ei; destruct (pos =? j)%nat eqn:Ej.
        + apply Nat.eqb_eq in Ei, Ej. congruence.
        + destruct (nth_error (h_ptrs h) i); [|discriminate]. specialize (O1 j p E2). assert (p = length (h_states h)) by congruence. lia.
        + destruct (nth_error (h_ptrs h) j); [|discriminate]. specialize (O1 i p E1). assert (p = length (h_states h)) by congruence. lia.
        + exact (O2 i j p E1 E2). }
    assert (Qh : q_states (qstate_of h1) = upd pos (Some (read_state_at s (rs_at src + 1))) (q_states (qstate_of h))).
    { cbn [h1 qstate_of q_states h_ptrs h_states]. rewrite map_upd. cbn [option_map]. rewrite app_nth2, Nat.sub_diag by lia. cbn [nth]. f_equal.
      apply nth_error_ext. intros i. rewrite !nth_error_map. destruct (nth_error (h_ptrs h) i) as [[p|]|] eqn:Ei; cbn [option_map]; try reflexivity.
      rewrite app_nth1 by exact (O1 i p Ei). reflexivity. }
    destruct (Fin h1 Oh eq_refl eq_refl _ Qh) as [F1 F2]. eexists. split; [reflexivity|]. split; [rewrite F1; congruence|]. split; [exact F2|]. cbn [h_states h1]. rewrite app_length. split; [lia|].
    intros p Lp. apply app_nth1. exact Lp.
  Qed.
  Definition with_posts (r : read_state) (ps : posts) : read_state := MkReadState (rs_blot r) (rs_at r) (rs_total r) ps.
  Definition set_posts (h : shared) (p : nat) (ps : posts) : shared :=
    MkShared (upd p (with_posts (nth p (h_states h) no_state) ps) (h_states h)) (h_ptrs h) (h_i h) (h_n h) (h_nil h).
  Lemma set_posts_id h p : (p < length (h_states h))%nat -> set_posts h p (rs_posts (nth p (h_states h) no_state)) = h.
  Proof.
    intros L. unfold set_posts, with_posts. rewrite upd_id.
    - destruct h; reflexivity.
    - rewrite (nth_error_nth' _ no_state L). destruct (nth p (h_states h) no_state); reflexivity.
  Qed.
  Lemma set_posts_twice h p a b : (p < length (h_states h))%nat -> set_posts (set_posts h p a) p b = set_posts h p b.
  Proof. intros L. unfold set_posts. cbn [h_states h_ptrs h_i h_n h_nil]. rewrite nth_upd_eq, upd_again by exact L. reflexivity. Qed.
  Lemma set_posts_ok h p ps : sh_ok h -> sh_ok (set_posts h p ps).
  Proof. intros [A B]. split; cbn [set_posts h_ptrs h_states]; [|exact B]. rewrite upd_length. exact A. Qed.
  Lemma set_posts_state h pos p ps : sh_ok h -> nth_error (h_ptrs h) pos = Some (Some p) ->
    qstate_of (set_posts h p ps) = MkQ (upd pos (Some (with_posts (nth p (h_states h) no_state) ps)) (q_states (qstate_of h))) (h_i h) (h_n h) (h_nil h).
  Proof.
    intros [A B] E. unfold qstate_of. cbn [set_posts h_states h_ptrs h_i h_n h_nil q_states]. f_equal.
    apply nth_error_ext. intros i. rewrite nth_error_upd, !nth_error_map. destruct (pos =? i)%nat eqn:Ei.
    - apply Nat.eqb_eq in Ei. subst i. rewrite E. cbn [option_map]. rewrite nth_upd_eq by exact (A _ _ E). reflexivity.
    - apply Nat.eqb_neq in Ei. destruct (nth_error (h_ptrs h) i) as [[p'|]|] eqn:E'; cbn [option_map]; try reflexivity.
      rewrite nth_upd_ne; [reflexivity|]. intros ->. apply Ei. exact (B _ _ _ E E').
  Qed.
  Lemma fill_solo pos p s lim b n : nth_error (ix_shards ix) pos = Some s ->
    forall fuel h dst ds ds' ps' eof, (p < length (h_states h))%nat -> nth_error dst n = Some (MkEntry b ds) ->
    fill_loop grow ix fuel lim (si_file s) (rs_posts (nth p (h_states h) no_state)) ds = Ok (ds', ps', eof) ->
    exists K, solo K h (MkIter (NRead p pos) lim dst n) = (set_posts h p ps', MkIter (if eof then NAdv p pos else NOut p) lim (upd n (MkEntry b ds') dst) n).
  Proof.
    intros Es. induction fuel as [|fuel IH]; intros h dst ds ds' ps' eof Lp En E; cbn [fill_loop] in E; [discriminate|].
    destruct (lim && negb (docs_len ds <? docs_cap ds)%nat) eqn:El.
    { assert (ds' = ds) as -> by congruence. assert (ps' = rs_posts (nth p (h_states h) no_state)) as -> by congruence. assert (eof = false) as -> by congruence.
      exists 1%nat. cbn [solo]. unfold NextRace.next_step. cbn [g_dst g_n g_pc g_lim]. rewrite En. cbn [be_docs]. rewrite El. cbn [at_pc g_lim g_dst g_n]. rewrite set_posts_id, upd_id by assumption. reflexivity. }
    destruct (posts_next (rs_posts (nth p (h_states h) no_state)) (si_file s)) as [[did ps1]|[|]| |] eqn:Ep; try discriminate.
    2: { assert (ds' = ds) as -> by congruence. assert (ps' = rs_posts (nth p (h_states h) no_state)) as -> by congruence. assert (eof = true) as -> by congruence.
      exists 1%nat. cbn [solo]. unfold NextRace.next_step. cbn [g_dst g_n g_pc g_lim]. rewrite En. cbn [be_docs]. rewrite El, Es, Ep. cbn [at_pc g_lim g_dst g_n]. rewrite set_posts_id, upd_id by assumption. reflexivity. }
    destruct (docid2doc ix did) as [[[path st] en]| | |] eqn:Ed; cbn [bind] in E; try discriminate.
    destruct (put_doc grow lim ds path st en) as [ds1| | |] eqn:Eu; cbn [bind] in E; try discriminate.
    assert (Ln : (n < length dst)%nat) by (apply nth_error_Some; congruence).
    destruct (IH (set_posts h p ps1) (upd n (MkEntry b ds1) dst) ds1 ds' ps' eof) as [K EK].
    - cbn [set_posts h_states]. rewrite upd_length. exact Lp.
    - apply nth_error_upd_eq, Ln.
    - cbn [set_posts h_states]. rewrite nth_upd_eq by exact Lp. cbn [with_posts rs_posts]. exact E.
    - assert (A1 : next_step h (MkIter (NRead p pos) lim dst n) = (set_posts h p ps1, MkIter (NDoc p pos did) lim dst n)).
      { unfold NextRace.next_step. cbn [g_dst g_n g_pc g_lim]. rewrite En. cbn [be_docs]. rewrite El, Es, Ep. reflexivity. }
      assert (A2 : next_step (set_posts h p ps1) (MkIter (NDoc p pos did) lim dst n) = (set_posts h p ps1, MkIter (NRead p pos) lim (upd n (MkEntry b ds1) dst) n)).
      { unfold NextRace.next_step. cbn [g_dst g_n g_pc g_lim]. rewrite En. cbn [be_docs be_blot]. rewrite Ed. cbn [bind]. rewrite Eu. reflexivity. }
      exists (S (S K)). cbn [solo]. rewrite A1, A2, EK, set_posts_twice, upd_again by exact Lp. reflexivity.
  Qed.
  Lemma iter_solo fuel h lim dst n r v : sh_ok h -> next_iter grow ix fuel (MkRun (qstate_of h) dst n) = Ok (r, v) ->
    exists K h' lim', solo K h (MkIter NTop lim dst n) =
      (h', MkIter (match v with Again => NTop | Return => NEnd false | ReturnEOF => NEnd true end) lim' (r_dst r) (r_n r)) /\ qstate_of h' = r_q r /\ sh_ok h'.
  Proof.
    intros O E. unfold next_iter in E. cbn [r_q r_dst r_n] in E.
    destruct (nth_error dst n) as [entry|] eqn:En.
    2: { assert (r = MkRun (qstate_of h) dst n) as -> by congruence. assert (v = Return) as -> by congruence. exists 1%nat, h, lim. cbn [solo]. unfold NextRace.next_step. cbn [g_dst g_n g_pc g_lim]. rewrite En. auto. }
    cbn [qstate_of q_states q_i] in E. rewrite nth_error_map in E.
    destruct (nth_error (h_ptrs h) (N.to_nat (h_i h))) as [[p|]|] eqn:Ep; cbn [option_map] in E; [| |discriminate].
    2: { change (q_nil (qstate_of h)) with (h_nil h) in E. change (q_n (qstate_of h)) with (h_n h) in E. destruct (u32 (h_nil h + 1) =? h_n h) eqn:Ec.
      - set (h1 := MkShared (h_states h) (h_ptrs h) (h_i h) (h_n h) (u32 (h_nil h + 1))). exists 1%nat, h1, lim. cbn [solo]. unfold NextRace.next_step. cbn [g_dst g_n g_pc]. rewrite En, Ep, Ec. fold h1.
        injection E as <- <-. cbn [r_dst r_n r_q at_pc g_lim g_dst g_n]. split; [destruct (n =? 0)%nat; reflexivity|]. split; [reflexivity|exact O].
      - set (h1 := MkShared (h_states h) (h_ptrs h) (if u32 (h_i h + 1) =? h_n h then 0 else u32 (h_i h + 1)) (h_n h) (u32 (h_nil h + 1))). exists 1%nat, h1, lim.
        cbn [solo]. unfold NextRace.next_step. cbn [g_dst g_n g_pc]. rewrite En, Ep, Ec. fold h1.
        injection E as <- <-. cbn [r_dst r_n r_q at_pc g_lim g_dst g_n]. split; [reflexivity|]. split; [reflexivity|exact O]. }
    set (pos := N.to_nat (h_i h)) in *. set (rs := nth p (h_states h) no_state) in *. pose proof (proj1 O _ _ Ep) as Lp.
    unfold fill_blot in E. destruct (nth_error (ix_shards ix) pos) as [s|] eqn:Es; cbn [bind] in E; [|discriminate].
    change (q_nil (qstate_of h)) with (h_nil h) in E. change (q_n (qstate_of h)) with (h_n h) in E. change (q_i (qstate_of h)) with (h_i h) in E. set (b := fill_blot_id (h_n h) (h_i h) (u32 (N.of_nat (rs_blot rs)))) in *.
    destruct (fill_loop grow ix fuel (negb (is_nil (be_docs entry))) (si_file s) (rs_posts rs) (be_docs entry)) as [[[ds' ps'] eof]| | |] eqn:Ef; cbn [bind] in E; try discriminate.
    set (lim1 := negb (is_nil (be_docs entry))) in *. assert (Ln : (n < length dst)%nat) by (apply nth_error_Some; congruence).
    destruct (fill_solo pos p s lim1 b n Es fuel h (upd n (MkEntry b (be_docs entry)) dst) (be_docs entry) ds' ps' eof Lp (nth_error_upd_eq _ _ _ Ln) Ef) as [K1 E1]. rewrite upd_again in E1.
    pose proof (set_posts_ok h p ps' O) as O1. pose proof (set_posts_state h pos p ps' O Ep) as S1. fold rs in S1.
    fold (with_posts rs ps') in E. rewrite <- S1 in E.
    set (h1 := set_posts h p ps') in *.
    assert (R1 : rs_at (nth p (h_states h1) no_state) = rs_at rs /\ rs_total (nth p (h_states h1) no_state) = rs_total rs /\ (p < length (h_states h1))%nat).
    { cbn [h1 set_posts h_states]. rewrite nth_upd_eq, upd_length by exact Lp. auto. } destruct R1 as (Ra1 & Rt1 & Lp1).
    (* the step to fillBlot, the reading and the first advance *)
    assert (T : exists K2 h2, solo K2 h (MkIter NTop lim dst n) = (h2, MkIter (NOut p) lim1 (upd n (MkEntry b ds') dst) n) /\ sh_ok h2 /\
      (if eof then advance ix (qstate_of h1) (with_posts rs ps') pos else Ok (qstate_of h1)) = Ok (qstate_of h2) /\
      rs_at (nth p (h_states h2) no_state) = rs_at rs /\ rs_total (nth p (h_states h2) no_state) = rs_total rs).
    { assert (E0 : solo (1 + K1) h (MkIter NTop lim dst n) = (h1, MkIter (if eof then NAdv p pos else NOut p) lim1 (upd n (MkEntry b ds') dst) n)).
      { cbn [Nat.add solo]. unfold NextRace.next_step. cbn [g_dst g_n g_pc]. rewrite En. fold pos. rewrite Ep, Es. fold rs. fold b. exact E1. }
      destruct eof.
      - destruct (advance ix (qstate_of h1) (with_posts rs ps') pos) as [q1| | |] eqn:Ea; cbn [bind] in E; try discriminate.
        destruct (move_on_sim h1 (with_posts rs ps') (nth p (h_states h1) no_state) pos q1 O1) as (h2 & M & Q2 & O2 & _ & P2); [symmetry; exact Ra1|symmetry; exact Rt1|exact Ea|].
        exists (1 + K1 + 1)%nat, h2. rewrite solo_add, E0. cbn [solo]. unfold NextRace.next_step. cbn [g_dst g_n g_pc]. rewrite nth_error_upd_eq by exact Ln. rewrite M. cbn [at_pc g_lim g_dst g_n].
        split; [reflexivity|]. split; [exact O2|]. split; [congruence|]. rewrite P2 by exact Lp1. auto.
      - exists (1 + K1)%nat, h1. split; [exact E0|]. auto. }
    destruct T as (K2 & h2 & E2 & O2 & Q2 & Ra2 & Rt2). rewrite Q2 in E. cbn [bind] in E.
    cbn [be_docs be_blot] in E. destruct (docs_len ds' <=? 1)%nat eqn:Ed.
    - destruct (advance ix (qstate_of h2) rs (N.to_nat (q_i (qstate_of h2)))) as [q3| | |] eqn:Ea; cbn [bind] in E; try discriminate.
      destruct (move_on_sim h2 rs (nth p (h_states h2) no_state) (N.to_nat (h_i h2)) q3 O2) as (h3 & M & Q3 & O3 & _ & _); [symmetry; exact Ra2|symmetry; exact Rt2|exact Ea|].
      exists (K2 + 1)%nat, h3, lim1. rewrite solo_add, E2. cbn [solo]. unfold NextRace.next_step. cbn [g_dst g_n g_pc g_lim]. rewrite nth_error_upd_eq by exact Ln. cbn [be_docs be_blot]. rewrite Ed, M.
      unfold at_pc, set_entry. cbn [g_lim g_dst g_n g_pc]. rewrite upd_again. injection E as <- <-. cbn [r_dst r_n r_q]. auto.
    - exists (K2 + 1)%nat, h2, lim1. rewrite solo_add, E2. cbn [solo]. unfold NextRace.next_step. cbn [g_dst g_n g_pc g_lim]. rewrite nth_error_upd_eq by exact Ln. cbn [be_docs]. rewrite Ed.
      injection E as <- <-. cbn [r_dst r_n r_q]. auto.
  Qed.
  Lemma next_solo fuel : forall k h lim dst n r eof, sh_ok h -> next_loop grow ix fuel k (MkRun (qstate_of h) dst n) = Ok (r, eof) ->
    exists K h' lim', solo K h (MkIter NTop lim dst n) = (h', MkIter (NEnd eof) lim' (r_dst r) (r_n r)) /\ qstate_of h' = r_q r /\ sh_ok h'.
  Proof.
    induction k as [|k IH]; intros h lim dst n r eof O E; cbn [next_loop] in E; [discriminate|].
    destruct (next_iter grow ix fuel (MkRun (qstate_of h) dst n)) as [[r1 v]| | |] eqn:Ei; cbn [bind] in E; try discriminate.
    destruct (iter_solo fuel h lim dst n r1 v O Ei) as (K1 & h1 & lim1 & E1 & Q1 & O1). destruct v.
    - destruct r1 as [q1 dst1 n1]. cbn [r_q r_dst r_n] in *. subst q1. destruct (IH h1 lim1 dst1 n1 r eof O1 E) as (K2 & h2 & lim2 & E2 & Q2 & O2).
      exists (K1 + K2)%nat, h2, lim2. rewrite solo_add, E1. auto.
    - exists K1, h1, lim1. injection E as <- <-. auto.
    - exists K1, h1, lim1. injection E as <- <-. auto.
  Qed.
End Race.
