(** Two goroutines take the documents of one blot. *)
From Coq Require Import Lia.
From Verif Require Import Model.Base Model.Address Model.Varint Model.Post Model.Poster Model.Shard Model.Dmd Model.Fnames Model.Index Model.Query Model.NextRace.
From Verif Require Import Spec.Reading Spec.Querying Proof.Tactics Proof.QueryP Proof.QueryP2 Proof.PathRaceP Proof.NextRaceP.
Local Open Scope N_scope.

Lemma set_max_loop_in : forall ss i max p, set_max_loop ss i max p = p \/ (i <= set_max_loop ss i max p < i + nlen ss).
Proof.
  induction ss as [|[s|] ss IH]; intros i max p; cbn [set_max_loop]; [left; reflexivity| |].
  - unfold nlen. cbn [length]. rewrite Nat2N.inj_succ. destruct (max <? rs_total s).
    + destruct (IH (i + 1) (rs_total s) i) as [->|H]; right; unfold nlen in *; lia.
    + destruct (IH (i + 1) max p) as [->|H]; [left; reflexivity|right; unfold nlen in *; lia].
  - unfold nlen. cbn [length]. rewrite Nat2N.inj_succ. destruct (IH (i + 1) max p) as [->|H]; [left; reflexivity|right; unfold nlen in *; lia].
Qed.
Section Split.
  Variable grow : nat -> nat.
  Variable ix : index.
  Notation next_step := (next_step grow ix).
  Notation next_race := (next_race grow ix).
  Notation move_on := (move_on ix).
  Lemma fill_end f lim : forall fuel ps ds ds' ps', fill_loop grow ix fuel lim f ps ds = Ok (ds', ps', true) -> posts_next ps' f = Err EOF.
  Proof.
    induction fuel as [|fuel IH]; intros ps ds ds' ps' E; cbn [fill_loop] in E; [discriminate|].
    destruct (lim && _); [discriminate|]. destruct (posts_next ps f) as [[did ps1]|[|]| |] eqn:Ep; try discriminate; [|congruence].
    destruct (docid2doc ix did) as [[[path st] en]| | |]; cbn [bind] in E; try discriminate.
    destruct (put_doc grow lim ds path st en) as [ds1| | |]; cbn [bind] in E; try discriminate. exact (IH _ _ _ _ E).
  Qed.
  Definition sized (h : shared) : Prop := length (h_ptrs h) = length (ix_shards ix) /\ (N.to_nat (h_i h) < length (ix_shards ix))%nat.
  Lemma move_on_any h src k : sh_ok h -> sized h -> (k < length (ix_shards ix))%nat ->
    exists h', move_on h src k = Ok h' /\ sh_ok h' /\ sized h' /\ (length (h_states h) <= length (h_states h'))%nat /\
      (forall p, (p < length (h_states h))%nat -> nth p (h_states h') no_state = nth p (h_states h) no_state) /\
      (forall j rs, nth_error (q_states (qstate_of h')) j = Some (Some rs) -> j = k /\ rs_at rs = (rs_at src + 1)%nat \/ j <> k /\ nth_error (q_states (qstate_of h)) j = Some (Some rs)).
  Proof.
    intros O [Z1 Z2] Lk. destruct (nth_error (ix_shards ix) k) as [s|] eqn:Es; [|apply nth_error_None in Es; lia].
    assert (A : exists o, advance ix (qstate_of h) src k = Ok (set_max (MkQ (upd k o (q_states (qstate_of h))) (q_i (qstate_of h)) (q_n (qstate_of h)) (q_nil (qstate_of h)))) /\
      forall rs, o = Some rs -> rs_at rs = (rs_at src + 1)%nat).
    { unfold advance. rewrite Es. destruct (_ =? 65535); [exists None; split; [reflexivity|discriminate]|]. destruct (_ <=? 1); [exists None; split; [reflexivity|discriminate]|].
      eexists. split; [reflexivity|]. intros rs E. assert (rs = read_state_at s (rs_at src + 1)) as -> by congruence. reflexivity. }
    destruct A as (o & A & Ho). destruct (move_on_sim grow ix h src src k _ O eq_refl eq_refl A) as (h' & M & Q & O' & Ll & P). exists h'. split; [exact M|]. split; [exact O'|].
    assert (Eq : q_states (qstate_of h') = upd k o (q_states (qstate_of h))) by (rewrite Q; reflexivity).
    split; [|split; [exact Ll|split; [exact P|]]].
    - assert (L : length (h_ptrs h') = length (h_ptrs h)).
      { pose proof (f_equal (@length _) Eq) as L. rewrite upd_length in L. cbn [qstate_of q_states] in L. rewrite !map_length in L. exact L. }
      split; [congruence|]. pose proof (f_equal q_i Q) as Qi. cbn [qstate_of q_i set_max q_states] in Qi. rewrite Qi.
      match goal with |- context [set_max_loop ?l 0 0 0] => pose proof (set_max_loop_in l 0 0 0) as R; assert (Lx : length l = length (ix_shards ix)) end.
      { rewrite upd_length. rewrite map_length. exact Z1. }
      unfold nlen in R. rewrite Lx in R. lia.
    - intros j rs E. rewrite Eq, nth_error_upd in E. destruct (k =? j)%nat eqn:Ej.
      + apply Nat.eqb_eq in Ej. subst j. left. split; [reflexivity|]. destruct (nth_error (q_states (qstate_of h)) k); [|discriminate]. apply Ho. injection E as E. exact E.
      + apply Nat.eqb_neq in Ej. right. split; [congruence|exact E].
  Qed.
  (** With the documents d1 :: l1 of its blot still to come, in a read state of position [at0]. *)
  Lemma split_blot h p s d1 l1 place b0 : sh_ok h -> sized h -> nth_error (h_ptrs h) (N.to_nat (h_i h)) = Some (Some p) ->
    nth_error (ix_shards ix) (N.to_nat (h_i h)) = Some s -> (1 <= length l1)%nat ->
    let rs := nth p (h_states h) no_state in
    reads (si_file s) (rs_posts rs) (d1 :: l1) -> (forall d, In d (d1 :: l1) -> docid2doc ix d = Ok (place d)) ->
    let b := fill_blot_id (h_n h) (h_i h) (u32 (N.of_nat (rs_blot rs))) in
    exists sched h' g2, next_race sched h [call_next [MkEntry b0 None]; call_next [MkEntry b0 None]] = (h', [MkIter NTop false [MkEntry b None] 0; g2]) /\
      (length l1 = 1%nat -> g2 = MkIter NTop false [MkEntry b None] 0) /\
      ((1 < length l1)%nat -> exists ds, g2 = MkIter (NEnd false) false [MkEntry b ds] 1 /\ docs_keys ds = map place l1) /\
      forall rs', nth_error (q_states (qstate_of h')) (N.to_nat (h_i h)) = Some (Some rs') -> rs_at rs' = (rs_at rs + 1)%nat.
  Proof.
    intros O Z Ep Es L1 rs R Pl b. set (pos := N.to_nat (h_i h)) in *. pose proof (proj1 O _ _ Ep) as Lp.
    destruct R as (ps1 & En1 & R1). pose proof (Pl d1 (or_introl eq_refl)) as P1. destruct (place d1) as [[pa1 st1] e1] eqn:Epl.
    destruct (put_doc_free grow None pa1 st1 e1 Logic.I) as (dsa & Ea & _ & Da & _). cbn [docs_list app] in Da.
    destruct (fill_loop_free grow ix place 0 (fun _ _ => []) 0 (fun a b (H : (a < 0)%nat) => False_ind _ (Nat.nlt_0_r a H)) (si_file s) l1 (S (length l1)) ps1 None R1) as (dsb & psb & Eb & Wb & Db); [intros d Hd; apply Pl; right; exact Hd|exact Logic.I|lia|].
    cbn [docs_list app] in Db.
    assert (Len : forall ds, docs_wf ds -> docs_len ds = length (docs_list ds)).
    { intros [[m back]|] W; cbn [docs_len docs_list docs_wf] in *; [rewrite firstn_length; lia|reflexivity]. }
    (* the first document for the first *)
    set (h1 := set_posts h p ps1).
    assert (S1 : solo grow ix 3 h (call_next [MkEntry b0 None]) = (h1, MkIter (NRead p pos) false [MkEntry b dsa] 0)).
    { assert (A1 : next_step h (call_next [MkEntry b0 None]) = (h, MkIter (NRead p pos) false [MkEntry b None] 0)).
      { unfold NextRace.next_step, call_next. cbn [g_dst g_n g_pc nth_error]. fold pos. rewrite Ep, Es. reflexivity. }
      assert (A2 : next_step h (MkIter (NRead p pos) false [MkEntry b None] 0) = (h1, MkIter (NDoc p pos d1) false [MkEntry b None] 0)).
      { unfold NextRace.next_step. cbn [g_dst g_n g_pc g_lim nth_error andb]. rewrite Es. fold rs. rewrite En1. reflexivity. }
      assert (A3 : next_step h1 (MkIter (NDoc p pos d1) false [MkEntry b None] 0) = (h1, MkIter (NRead p pos) false [MkEntry b dsa] 0)).
      { unfold NextRace.next_step. cbn [g_dst g_n g_pc g_lim nth_error be_docs]. rewrite P1. cbn [bind]. rewrite Ea. reflexivity. }
      cbn [solo]. rewrite A1, A2, A3. reflexivity. }
    (* the others for the second *)
    assert (Rs1 : nth p (h_states h1) no_state = with_posts rs ps1) by (cbn [h1 set_posts h_states]; rewrite nth_upd_eq by exact Lp; reflexivity).
    assert (Lp1 : (p < length (h_states h1))%nat) by (cbn [h1 set_posts h_states]; rewrite upd_length; exact Lp).
    destruct (fill_solo grow ix pos p s false b 0 Es (S (length l1)) h1 [MkEntry b None] None dsb psb true Lp1 eq_refl) as [K EK]; [rewrite Rs1; exact Eb|].
    assert (S2 : solo grow ix (1 + K) h1 (call_next [MkEntry b0 None]) = (set_posts h1 p psb, MkIter (NAdv p pos) false [MkEntry b dsb] 0)).
    { assert (A1 : next_step h1 (call_next [MkEntry b0 None]) = (h1, MkIter (NRead p pos) false [MkEntry b None] 0)).
      { unfold NextRace.next_step, call_next. cbn [g_dst g_n g_pc nth_error]. change (h_ptrs h1) with (h_ptrs h). change (h_i h1) with (h_i h). change (h_n h1) with (h_n h). fold pos. rewrite Ep, Es, Rs1. reflexivity. }
      cbn [Nat.add solo]. rewrite A1. exact EK. }
    set (h2 := set_posts h1 p psb) in *.
    assert (O2 : sh_ok h2) by (apply set_posts_ok, set_posts_ok, O). assert (Z2 : sized h2) by exact Z.
    assert (Lp2 : (p < length (h_states h2))%nat) by (cbn [h2 set_posts h_states]; rewrite upd_length; exact Lp1).
    assert (Rs2 : nth p (h_states h2) no_state = with_posts rs psb) by (cbn [h2 set_posts h_states]; rewrite nth_upd_eq by exact Lp1; rewrite Rs1; reflexivity).
    assert (Lpos : (pos < length (ix_shards ix))%nat) by (apply nth_error_Some; congruence).
    set (src := with_posts rs psb) in *.
    (* the first goes on *)
    destruct (move_on_any h2 src pos O2 Z2 Lpos) as (h3 & M3 & O3 & Z3 & L3 & P3 & Q3).
    destruct (move_on_any h3 src (N.to_nat (h_i h3)) O3 Z3 (proj2 Z3)) as (h4 & M4 & O4 & Z4 & L4 & P4 & Q4).
    destruct (move_on_any h4 src pos O4 Z4 Lpos) as (h5 & M5 & O5 & Z5 & L5 & P5 & Q5).
    destruct (move_on_any h5 src (N.to_nat (h_i h5)) O5 Z5 (proj2 Z5)) as (h6 & M6 & O6 & Z6 & L6 & P6 & Q6).
    assert (Rs3 : nth p (h_states h3) no_state = src) by (rewrite P3 by lia; exact Rs2).
    assert (Rs4 : nth p (h_states h4) no_state = src) by (rewrite P4 by lia; exact Rs3).
    assert (Rs5 : nth p (h_states h5) no_state = src) by (rewrite P5 by lia; exact Rs4).
    assert (At : forall rs', nth_error (q_states (qstate_of h5)) pos = Some (Some rs') -> rs_at rs' = (rs_at rs + 1)%nat).
    { intros rs' E. destruct (Q5 _ _ E) as [[_ H]|[H _]]; [exact H|congruence]. }
    assert (S3 : solo grow ix 3 h2 (MkIter (NRead p pos) false [MkEntry b dsa] 0) = (h4, MkIter NTop false [MkEntry b None] 0)).
    { assert (A1 : next_step h2 (MkIter (NRead p pos) false [MkEntry b dsa] 0) = (h2, MkIter (NAdv p pos) false [MkEntry b dsa] 0)).
      { unfold NextRace.next_step. cbn [g_dst g_n g_pc g_lim nth_error andb]. rewrite Es, Rs2. cbn [src with_posts rs_posts]. rewrite (fill_end _ _ _ _ _ _ _ Eb). reflexivity. }
      assert (A2 : next_step h2 (MkIter (NAdv p pos) false [MkEntry b dsa] 0) = (h3, MkIter (NOut p) false [MkEntry b dsa] 0)).
      { unfold NextRace.next_step. cbn [g_dst g_n g_pc g_lim nth_error]. rewrite Rs2, M3. reflexivity. }
      assert (A3 : next_step h3 (MkIter (NOut p) false [MkEntry b dsa] 0) = (h4, MkIter NTop false [MkEntry b None] 0)).
      { unfold NextRace.next_step. cbn [g_dst g_n g_pc g_lim nth_error be_docs]. rewrite Rs3, M4.
        assert (docs_len dsa = 1%nat) as -> by (clear -Ea; cbn [put_doc] in Ea; assert (dsa = Some (1%nat, MkDoc pa1 st1 e1 [] :: repeat zero_doc (grow 0%nat))) as -> by congruence; reflexivity). reflexivity. }
      cbn [solo]. rewrite A1, A2, A3. reflexivity. }
    assert (A2 : next_step h4 (MkIter (NAdv p pos) false [MkEntry b dsb] 0) = (h5, MkIter (NOut p) false [MkEntry b dsb] 0)).
    { unfold NextRace.next_step. cbn [g_dst g_n g_pc g_lim nth_error]. rewrite Rs4, M5. reflexivity. }
    assert (Lb : docs_len dsb = length l1) by (rewrite (Len dsb Wb), Db, map_length; reflexivity).
    set (g0 := call_next [MkEntry b0 None]) in *.
    assert (Run : forall K4 h' g2, solo grow ix K4 h4 (MkIter (NAdv p pos) false [MkEntry b dsb] 0) = (h', g2) ->
      next_race (repeat 0%nat 3 ++ repeat 1%nat (1 + K) ++ repeat 0%nat 3 ++ repeat 1%nat K4) h [g0; g0] = (h', [MkIter NTop false [MkEntry b None] 0; g2])).
    { intros K4 h' g2 E4. rewrite nrace_app, (nrace_solo grow ix 3 0 h [g0; g0] g0 eq_refl), S1. cbn [upd].
      rewrite nrace_app, (nrace_solo grow ix (1 + K) 1 h1 [MkIter (NRead p pos) false [MkEntry b dsa] 0; g0] g0 eq_refl), S2. cbn [upd].
      rewrite nrace_app, (nrace_solo grow ix 3 0 h2 [MkIter (NRead p pos) false [MkEntry b dsa] 0; MkIter (NAdv p pos) false [MkEntry b dsb] 0] _ eq_refl), S3. cbn [upd].
      rewrite (nrace_solo grow ix K4 1 h4 [MkIter NTop false [MkEntry b None] 0; MkIter (NAdv p pos) false [MkEntry b dsb] 0] _ eq_refl), E4. reflexivity. }
    destruct (Nat.eq_dec (length l1) 1) as [E1|E1].
    - assert (A3 : next_step h5 (MkIter (NOut p) false [MkEntry b dsb] 0) = (h6, MkIter NTop false [MkEntry b None] 0)).
      { unfold NextRace.next_step. cbn [g_dst g_n g_pc g_lim nth_error be_docs]. rewrite Rs5, M6, Lb, E1. reflexivity. }
      eexists. exists h6, (MkIter NTop false [MkEntry b None] 0). split; [apply (Run 2%nat); cbn [solo]; rewrite A2, A3; reflexivity|]. split; [reflexivity|]. split; [lia|].
      intros rs' E. destruct (Q6 _ _ E) as [[_ H]|[_ H]]; [exact H|exact (At _ H)].
    - assert (A3 : next_step h5 (MkIter (NOut p) false [MkEntry b dsb] 0) = (h5, MkIter NTop false [MkEntry b dsb] 1)).
      { unfold NextRace.next_step. cbn [g_dst g_n g_pc g_lim nth_error be_docs]. rewrite Lb. assert ((length l1 <=? 1)%nat = false) as -> by (apply Nat.leb_gt; lia). reflexivity. }
      assert (A4 : next_step h5 (MkIter NTop false [MkEntry b dsb] 1) = (h5, MkIter (NEnd false) false [MkEntry b dsb] 1)) by reflexivity.
      eexists. exists h5, (MkIter (NEnd false) false [MkEntry b dsb] 1). split; [apply (Run 3%nat); cbn [solo]; rewrite A2, A3, A4; reflexivity|]. split; [lia|]. split; [|exact At].
      intros _. exists dsb. split; [reflexivity|]. unfold docs_keys. rewrite Db, map_map. apply map_ext. intros d. destruct (place d) as [[x y] z]. reflexivity.
  Qed.
End Split.
