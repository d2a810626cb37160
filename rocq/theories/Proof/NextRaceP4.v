(** A goroutine that comes late makes the others' blot come again. *)
From Coq Require Import Lia Permutation.
From Verif Require Import Model.Base Model.Address Model.Varint Model.Post Model.Poster Model.Shard Model.Dmd Model.Fnames Model.Index Model.Query Model.NextRace.
From Verif Require Import Spec.Reading Spec.Querying Proof.Tactics Proof.QueryP Proof.QueryP2 Proof.PathRaceP Proof.NextRaceP Proof.NextRaceP2 Proof.NextRaceP3.
Local Open Scope N_scope.

Section Twice.
  Variable grow : nat -> nat.
  Variable ix : index.
  Notation next_step := (next_step grow ix).
  Notation next_race := (next_race grow ix).
  Notation move_on := (move_on ix).
  (** A call that nobody disturbs, for a blot with documents enough. *)
  Lemma take_all h p s b0 fuel ds ps : nth_error (h_ptrs h) (N.to_nat (h_i h)) = Some (Some p) -> (p < length (h_states h))%nat ->
    nth_error (ix_shards ix) (N.to_nat (h_i h)) = Some s ->
    fill_loop grow ix fuel false (si_file s) (rs_posts (nth p (h_states h) no_state)) None = Ok (ds, ps, true) -> (2 <= docs_len ds)%nat ->
    forall h', move_on (set_posts h p ps) (with_posts (nth p (h_states h) no_state) ps) (N.to_nat (h_i h)) = Ok h' ->
    exists K, solo grow ix K h (MkIter NTop false [MkEntry b0 None] 0) =
      (h', MkIter (NEnd false) false [MkEntry (fill_blot_id (h_n h) (h_i h) (u32 (N.of_nat (rs_blot (nth p (h_states h) no_state))))) ds] 1).
  Proof.
    intros Ep Lp Es Ef L2 h' M. set (pos := N.to_nat (h_i h)) in *. set (rs := nth p (h_states h) no_state) in *. set (b := fill_blot_id _ _ _).
    destruct (fill_solo grow ix pos p s false b 0 Es fuel h [MkEntry b None] None ds ps true Lp eq_refl Ef) as [K EK].
    assert (A1 : next_step h (MkIter NTop false [MkEntry b0 None] 0) = (h, MkIter (NRead p pos) false [MkEntry b None] 0)).
    { unfold NextRace.next_step. cbn [g_dst g_n g_pc nth_error]. fold pos. rewrite Ep, Es. reflexivity. }
    assert (Rs : nth p (h_states (set_posts h p ps)) no_state = with_posts rs ps) by (cbn [set_posts h_states]; rewrite nth_upd_eq by exact Lp; reflexivity).
    assert (A2 : next_step (set_posts h p ps) (MkIter (NAdv p pos) false [MkEntry b ds] 0) = (h', MkIter (NOut p) false [MkEntry b ds] 0)).
    { unfold NextRace.next_step. cbn [g_dst g_n g_pc g_lim nth_error]. rewrite Rs, M. reflexivity. }
    assert (A3 : next_step h' (MkIter (NOut p) false [MkEntry b ds] 0) = (h', MkIter NTop false [MkEntry b ds] 1)).
    { unfold NextRace.next_step. cbn [g_dst g_n g_pc g_lim nth_error be_docs]. assert ((docs_len ds <=? 1)%nat = false) as -> by (apply Nat.leb_gt; lia). reflexivity. }
    assert (A4 : next_step h' (MkIter NTop false [MkEntry b ds] 1) = (h', MkIter (NEnd false) false [MkEntry b ds] 1)) by reflexivity.
    exists (1 + (K + 3))%nat. rewrite solo_add. cbn [solo]. rewrite A1, solo_add, EK. cbn [upd solo]. rewrite A2, A3, A4. reflexivity.
  Qed.
  Variables (content : nat -> nat -> list N) (place : N -> bytes * N * N).
  Hypothesis I : index_ok ix 1 content place.

  Lemma one_move st o src s nl : nth_error (ix_shards ix) 0 = Some s -> N.of_nat (rs_at src) < 65535 -> 2 <= rs_total src ->
    move_on (MkShared st [o] 0 1 nl) src 0 = Ok (MkShared (st ++ [read_state_at s (rs_at src + 1)]) [Some (length st)] 0 1 nl).
  Proof.
    intros Es La Lt. unfold NextRace.move_on. rewrite Es. cbn [h_states h_ptrs h_i h_n h_nil].
    assert (N.of_nat (rs_at src) =? 65535 = false) as -> by (apply N.eqb_neq; lia). assert (rs_total src <=? 1 = false) as -> by (apply N.leb_gt; lia).
    cbn [bind h_states h_ptrs h_i h_n h_nil upd]. f_equal. f_equal. unfold qstate_of. cbn [q_states h_ptrs h_states map option_map set_max_loop]. destruct (0 <? _); reflexivity.
  Qed.
  Lemma second_blot b1 b2 : duplicated 1 content b1 -> duplicated 1 content b2 -> b1 <> b2 -> exists si, nth_error (ix_shards ix) 0 = Some si /\
    (2 <= length (content 0%nat (nth 0 (si_perm si) 0%nat)))%nat /\ (2 <= length (content 0%nat (nth 1 (si_perm si) 0%nat)))%nat.
  Proof.
    intros [L1 D1] [L2 D2] Ne. destruct (nth_error (ix_shards ix) 0) as [si|] eqn:Es; [|apply nth_error_None in Es; rewrite (io_len _ _ _ _ I) in Es; lia]. exists si. split; [reflexivity|].
    destruct (io_perm _ _ _ _ I 0%nat si Es) as [Pm Srt0].
    assert (Lp : length (si_perm si) = num_slots) by (rewrite (Permutation_length Pm); apply seq_length).
    assert (Srt : forall i j, (i <= j < num_slots)%nat -> (length (content 0%nat (nth j (si_perm si) 0%nat)) <= length (content 0%nat (nth i (si_perm si) 0%nat)))%nat).
    { intros i j H. specialize (Srt0 i j H). pose proof (perm_in ix 1 content place I 0%nat si i Es) as Pi. pose proof (perm_in ix 1 content place I 0%nat si j Es) as Pj.
      rewrite (proj2 (io_reads _ _ _ _ I 0%nat si Es _ Pi)), (proj2 (io_reads _ _ _ _ I 0%nat si Es _ Pj)) in Srt0. unfold nlen in Srt0. clear -Srt0. lia. }
    assert (Pos : forall b, b < N.of_nat 1 * 65536 -> (2 <= length (at_blot 1 content b))%nat -> exists i, (i < num_slots)%nat /\ nth i (si_perm si) 0%nat = N.to_nat b /\ (2 <= length (content 0%nat (nth i (si_perm si) 0%nat)))%nat).
    { intros b Lb Db.
      assert (H : In (N.to_nat b) (si_perm si)). { eapply Permutation_in; [symmetry; exact Pm|]. apply in_seq. unfold num_slots. lia. }
      destruct (In_nth _ _ 0%nat H) as (i & Li & Ei). exists i. split; [rewrite <- Lp; exact Li|]. split; [exact Ei|]. rewrite Ei.
      unfold at_blot in Db. change (N.of_nat 1) with 1 in Db. rewrite N.mod_1_r, N.div_1_r, N.mod_small in Db by lia. exact Db. }
    destruct (Pos b1 L1 D1) as (i & Li & Ei & Ci). destruct (Pos b2 L2 D2) as (j & Lj & Ej & Cj).
    assert (Nij : i <> j) by (intros ->; apply Ne; apply N2Nat.inj; congruence).
    assert (M : exists k, (1 <= k < num_slots)%nat /\ (2 <= length (content 0%nat (nth k (si_perm si) 0%nat)))%nat).
    { destruct i as [|i]; [exists j|exists (S i)]; (split; [split; [|assumption]|assumption]); lia. }
    destruct M as (k & [Lk1 Lk2] & Ck). split; (eapply Nat.le_trans; [exact Ck|]); apply Srt; (split; [|exact Lk2]); lia.
  Qed.
  Theorem twice b1 b2 b0 : duplicated 1 content b1 -> duplicated 1 content b2 -> b1 <> b2 ->
    exists sched h' g0 b ds, next_race sched (share (start_query ix)) [call_next [MkEntry b0 None]; call_next [MkEntry b0 None]; call_next [MkEntry b0 None]] =
      (h', [g0; MkIter (NEnd false) false [MkEntry b ds] 1; MkIter (NEnd false) false [MkEntry b ds] 1]) /\ (2 <= length (docs_keys ds))%nat.
  Proof.
    intros D1 D2 Ne. destruct (second_blot b1 b2 D1 D2 Ne) as (s & Es & C0 & C1).
    assert (Fl : forall i, (2 <= length (content 0%nat (nth i (si_perm s) 0%nat)))%nat -> exists ds ps, fill_loop grow ix (S (length (content 0%nat (nth i (si_perm s) 0%nat)))) false (si_file s) (rs_posts (read_state_at s i)) None = Ok (ds, ps, true) /\
      (2 <= docs_len ds)%nat /\ length (docs_keys ds) = docs_len ds /\ 2 <= rs_total (read_state_at s i) /\ rs_at (read_state_at s i) = i).
    { intros i Ci. pose proof (perm_in ix 1 content place I 0%nat s i Es) as Lb. destruct (io_reads _ _ _ _ I 0%nat s Es _ Lb) as [R Ct].
      set (l := content 0%nat (nth i (si_perm s) 0%nat)) in *.
      destruct (fill_loop_free grow ix place 0 (fun _ _ => []) 0 (fun a b (H : (a < 0)%nat) => False_ind _ (Nat.nlt_0_r a H)) (si_file s) l (S (length l)) (rs_posts (read_state_at s i)) None R) as (ds & ps & E & W & L); [intros d Hd; exact (io_place _ _ _ _ I 0%nat _ d (le_n 1) Lb Hd)|exact Logic.I|lia|].
      assert (Ld : docs_len ds = length (docs_list ds)) by (destruct ds as [[m back]|]; cbn [docs_len docs_list docs_wf] in *; [rewrite firstn_length; lia|reflexivity]).
      exists ds, ps. split; [exact E|]. split; [rewrite Ld, L; cbn [docs_list app]; rewrite map_length; exact Ci|]. split; [unfold docs_keys; rewrite map_length; symmetry; exact Ld|]. split; [|reflexivity].
      change (rs_total (read_state_at s i)) with (nth (nth i (si_perm s) 0%nat) (si_counts s) 0). rewrite Ct. unfold nlen. lia. }
    destruct (Fl 0%nat C0) as (ds0 & ps0 & F0 & L0 & _ & T0 & At0). destruct (Fl 1%nat C1) as (ds1 & ps1 & F1 & L1 & K1 & T1 & At1).
    set (r0 := read_state_at s 0) in *. set (r1 := read_state_at s 1) in *. set (r2 := read_state_at s 2).
    assert (Sh : share (start_query ix) = MkShared [r0] [Some 0%nat] 0 1 0).
    { pose proof (io_len _ _ _ _ I) as Ln. destruct (ix_shards ix) as [|s' [|]] eqn:Ex; try discriminate. cbn [nth_error] in Es. assert (s' = s) as -> by congruence.
      unfold start_query. rewrite Ex. cbn [map]. fold r0. unfold set_max, share. cbn [q_states q_i q_n q_nil map length seq combine option_map fst snd set_max_loop]. destruct (0 <? _); reflexivity. }
    set (h0 := MkShared [r0] [Some 0%nat] 0 1 0) in *. set (h1 := MkShared [with_posts r0 ps0; r1] [Some 1%nat] 0 1 0).
    set (h2 := MkShared [with_posts r0 ps0; with_posts r1 ps1; r2] [Some 2%nat] 0 1 0).
    set (h3 := MkShared [with_posts r0 ps0; with_posts r1 ps1; r2; r1] [Some 3%nat] 0 1 0).
    set (h4 := MkShared [with_posts r0 ps0; with_posts r1 ps1; r2; r1; r1] [Some 4%nat] 0 1 0).
    set (h5 := MkShared [with_posts r0 ps0; with_posts r1 ps1; r2; r1; with_posts r1 ps1; r2] [Some 5%nat] 0 1 0).
    set (g := call_next [MkEntry b0 None]) in *. set (bl0 := fill_blot_id 1 0 (u32 (N.of_nat (rs_blot r0)))). set (bl1 := fill_blot_id 1 0 (u32 (N.of_nat (rs_blot r1)))).
    assert (Es' := Es). cbn [nth_error] in Es'.
    (* the second goroutine has the first read state, and waits *)
    assert (B1 : solo grow ix 1 h0 g = (h0, MkIter (NRead 0 0) false [MkEntry bl0 None] 0)).
    { cbn [solo]. unfold NextRace.next_step, g, call_next. cbn [g_dst g_n g_pc nth_error h0 h_ptrs h_i]. change (N.to_nat 0) with 0%nat. cbn [nth_error]. rewrite Es'. reflexivity. }
    destruct (take_all h0 0 s b0 _ ds0 ps0 eq_refl (le_n 1) Es F0 L0 h1) as [Ka A]; [exact (one_move [with_posts r0 ps0] (Some 0%nat) (with_posts r0 ps0) s 0 Es ltac:(cbn [with_posts rs_at]; rewrite At0; lia) T0)|].
    assert (Kc : forall h p b, nth p (h_states h) no_state = r1 -> (p < length (h_states h))%nat -> h_ptrs h = [Some p] -> h_i h = 0 -> h_n h = 1 ->
      forall h', move_on (set_posts h p ps1) (with_posts r1 ps1) 0 = Ok h' -> exists K, solo grow ix K h (MkIter NTop false [MkEntry b None] 0) = (h', MkIter (NEnd false) false [MkEntry bl1 ds1] 1)).
    { intros h p b Er Lp Hp Hi Hn h' M. destruct (take_all h p s b (S (length (content 0%nat (nth 1 (si_perm s) 0%nat)))) ds1 ps1) with (h' := h') as [K EK].
      - rewrite Hp, Hi. reflexivity.
      - exact Lp.
      - rewrite Hi. exact Es.
      - rewrite Er. exact F1.
      - exact L1.
      - rewrite Er, Hi. exact M.
      - exists K. rewrite Er, Hi, Hn in EK. exact EK. }
    destruct (Kc h1 1%nat b0 eq_refl (le_n 2) eq_refl eq_refl eq_refl h2) as [K2 C]; [exact (one_move [with_posts r0 ps0; with_posts r1 ps1] (Some 1%nat) (with_posts r1 ps1) s 0 Es ltac:(cbn [with_posts rs_at]; rewrite At1; lia) T1)|].
    assert (Bw : solo grow ix 3 h2 (MkIter (NRead 0 0) false [MkEntry bl0 None] 0) = (h4, MkIter NTop false [MkEntry bl0 None] 0)).
    { assert (S1 : next_step h2 (MkIter (NRead 0 0) false [MkEntry bl0 None] 0) = (h2, MkIter (NAdv 0 0) false [MkEntry bl0 None] 0)).
      { unfold NextRace.next_step. cbn [g_dst g_n g_pc g_lim nth_error andb h2 h_states nth with_posts rs_posts]. rewrite Es', (fill_end _ _ _ _ _ _ _ _ _ F0). reflexivity. }
      assert (S2 : next_step h2 (MkIter (NAdv 0 0) false [MkEntry bl0 None] 0) = (h3, MkIter (NOut 0) false [MkEntry bl0 None] 0)).
      { unfold NextRace.next_step, h2. cbn [g_dst g_n g_pc g_lim nth_error h_states nth].
        rewrite (one_move [with_posts r0 ps0; with_posts r1 ps1; r2] (Some 2%nat) (with_posts r0 ps0) s 0 Es ltac:(cbn [with_posts rs_at]; rewrite At0; lia) T0). reflexivity. }
      assert (S3 : next_step h3 (MkIter (NOut 0) false [MkEntry bl0 None] 0) = (h4, MkIter NTop false [MkEntry bl0 None] 0)).
      { unfold NextRace.next_step, h3. cbn [g_dst g_n g_pc g_lim nth_error be_docs docs_len Nat.leb h_states nth h_i]. change (N.to_nat 0) with 0%nat.
        rewrite (one_move [with_posts r0 ps0; with_posts r1 ps1; r2; r1] (Some 3%nat) (with_posts r0 ps0) s 0 Es ltac:(cbn [with_posts rs_at]; rewrite At0; lia) T0). reflexivity. }
      cbn [solo]. rewrite S1, S2, S3. reflexivity. }
    destruct (Kc h4 4%nat bl0 eq_refl (le_n 5) eq_refl eq_refl eq_refl h5) as [K3 B3]; [exact (one_move [with_posts r0 ps0; with_posts r1 ps1; r2; r1; with_posts r1 ps1] (Some 4%nat) (with_posts r1 ps1) s 0 Es ltac:(cbn [with_posts rs_at]; rewrite At1; lia) T1)|].
    set (gA := MkIter (NEnd false) false [MkEntry bl0 ds0] 1) in *.
    set (gB := MkIter (NRead 0 0) false [MkEntry bl0 None] 0) in *.
    set (gC := MkIter (NEnd false) false [MkEntry bl1 ds1] 1) in *.
    change (solo grow ix Ka h0 g = (h1, gA)) in A. change (solo grow ix K2 h1 g = (h2, gC)) in C.
    exists (repeat 1%nat 1 ++ repeat 0%nat Ka ++ repeat 2%nat K2 ++ repeat 1%nat (3 + K3)), h5, gA, bl1, ds1. split; [|rewrite K1; exact L1]. rewrite Sh.
    rewrite nrace_app, (nrace_solo grow ix 1 1 h0 [g; g; g] g eq_refl), B1. cbn [upd].
    rewrite nrace_app, (nrace_solo grow ix Ka 0 h0 [g; gB; g] g eq_refl). rewrite A. cbn [upd].
    rewrite nrace_app. rewrite (nrace_solo grow ix K2 2 h1 [gA; gB; g] g eq_refl). rewrite C. cbn [upd].
    rewrite (nrace_solo grow ix (3 + K3) 1 h2 [gA; gB; gC] gB eq_refl), solo_add. rewrite Bw, B3. reflexivity.
  Qed.
End Twice.
