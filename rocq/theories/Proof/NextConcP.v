(** The program of Next is Next; and what becomes of it when its first lookup is overtaken. *)
From Verif Require Import Model.Base Model.Address Model.Varint Model.Post Model.Poster Model.Shard Model.Dmd Model.Fnames Model.Index Model.Query Model.DmdConc Model.NextConc.
From Verif Require Import Spec.Reading Spec.Querying Spec.Turns Proof.Tactics Proof.QueryP Proof.QueryP2 Proof.DmdConcP.
Local Open Scope N_scope.

Lemma alone_pbind {A B} f (p : prog A) (k : A -> prog B) : alone f (pbind p k) = do! a <- alone f p; alone f (k a).
Proof. induction p as [[a|e| |]|did c IH]; cbn [pbind alone bind]; try reflexivity. apply IH. Qed.
Section P.
  Variables (grow : nat -> nat) (ix : index).
  Notation f := (ix_dmd ix).
  Lemma fill_prog_alone file : forall fuel lim ps ds, alone f (fill_prog grow ix fuel lim file ps ds) = fill_loop grow ix fuel lim file ps ds.
  Proof.
    induction fuel as [|k IH]; intros lim ps ds; cbn [fill_prog fill_loop alone]; [reflexivity|].
    destruct (_ && _); [reflexivity|]. destruct (posts_next ps file) as [[did ps']|[| ]| |]; try reflexivity. cbn [alone].
    unfold docid2doc. destruct (dmd_lookup f did) as [fl| | |]; cbn [bind]; try reflexivity.
    destruct (fn_abs (ix_fnames ix) (f_fid fl)) as [path| | |]; cbn [bind]; try reflexivity.
    destruct (put_doc grow lim ds path (f_start fl) (f_end fl)); cbn [bind]; try reflexivity. apply IH.
  Qed.
  Lemma fill_blot_prog_alone fuel q dst src pos : alone f (fill_blot_prog grow ix fuel q dst src pos) = fill_blot grow ix fuel q dst src pos.
  Proof.
    unfold fill_blot_prog, fill_blot. destruct (nth_error (ix_shards ix) pos) as [s|]; [|reflexivity]. cbv zeta. rewrite alone_pbind, fill_prog_alone.
    destruct (fill_loop grow ix fuel _ (si_file s) (rs_posts src) (be_docs dst)) as [[[ds ps] eof]|e| |]; reflexivity.
  Qed.
  Lemma next_iter_prog_alone fuel r : alone f (next_iter_prog grow ix fuel r) = next_iter grow ix fuel r.
  Proof.
    unfold next_iter_prog, next_iter. destruct (nth_error (r_dst r) (r_n r)) as [entry|]; [|reflexivity].
    destruct (nth_error (q_states (r_q r)) (N.to_nat (q_i (r_q r)))) as [[rs|]|]; [| |reflexivity].
    - cbv zeta. rewrite alone_pbind, fill_blot_prog_alone. destruct (fill_blot grow ix fuel (r_q r) entry rs _) as [[e q]|e| |]; reflexivity.
    - cbv zeta. destruct (_ =? _); reflexivity.
  Qed.
  Lemma next_loop_prog_alone fuel : forall k r, alone f (next_loop_prog grow ix fuel k r) = next_loop grow ix fuel k r.
  Proof.
    induction k as [|k IH]; intros r; cbn [next_loop_prog next_loop]; [reflexivity|]. rewrite alone_pbind, next_iter_prog_alone.
    destruct (next_iter grow ix fuel r) as [[r' [| |]]|e| |]; cbn [bind alone]; try reflexivity. apply IH.
  Qed.
  Theorem next_prog_alone fuel k q dst : alone f (next_prog grow ix fuel k q dst) = query_next grow ix fuel k q dst.
  Proof. apply next_loop_prog_alone. Qed.
End P.

Section Q.
  Variables (grow : nat -> nat) (ix : index) (n : nat) (content : nat -> nat -> list N) (place : N -> bytes * N * N).
  Hypothesis I : index_ok ix n content place.
  Lemma fill_free file ids : forall k ps ds, reads file ps ids -> (forall d, In d ids -> docid2doc ix d = Ok (place d)) ->
    docs_wf ds -> (length ids < k)%nat ->
    exists ds' ps', fill_loop grow ix k false file ps ds = Ok (ds', ps', true) /\ docs_wf ds' /\
      docs_list ds' = docs_list ds ++ map (fun d => key_doc (place d) []) ids.
  Proof.
    clear I. induction ids as [|d ids IH]; intros [|k] ps ds R Pl W L; cbn [length] in L; try lia; cbn [fill_loop andb reads map] in *.
    - rewrite R. exists ds, ps. rewrite app_nil_r. auto.
    - destruct R as (ps' & E & R). rewrite E, (Pl d) by (left; reflexivity). cbn [bind].
      destruct (place d) as [[p s] e] eqn:Ep.
      destruct (put_doc_free grow ds p s e W) as (ds1 & E1 & W1 & L1 & _). rewrite E1. cbn [bind].
      destruct (IH k ps' ds1 R) as (ds2 & ps2 & E2 & W2 & L2); auto; [|lia|].
      { intros x Hx. apply Pl. right. exact Hx. }
      exists ds2, ps2. split; [exact E2|]. split; [exact W2|]. rewrite L2, L1, <- app_assoc. reflexivity.
  Qed.
  (** The first lookup of Next, and what it returns if it reads the record of [d']. *)
  Lemma next_prog_head q rs s d1 l1 fuel k b0 : nth_error (q_states q) (N.to_nat (q_i q)) = Some (Some rs) -> nth_error (ix_shards ix) (N.to_nat (q_i q)) = Some s ->
    reads (si_file s) (rs_posts rs) (d1 :: l1) -> (1 <= length l1)%nat -> (length (d1 :: l1) < fuel)%nat ->
    (forall d, In d (d1 :: l1) -> docid2doc ix d = Ok (place d)) ->
    (2 <= k)%nat ->
    exists c r e, query_next grow ix fuel k q [MkEntry b0 None] = Ok (r, false) /\ next_prog grow ix fuel k q [MkEntry b0 None] = Look d1 c /\ r_dst r = [e] /\ r_n r = 1%nat /\ docs_keys (be_docs e) = place d1 :: map place l1 /\
    be_blot e = fill_blot_id (q_n q) (q_i q) (u32 (N.of_nat (rs_blot rs))) /\
    (forall d' fl, dmd_lookup (ix_dmd ix) d' = Ok fl -> docid2doc ix d' = Ok (place d') ->
      exists r' e', alone (ix_dmd ix) (c (Ok fl)) = Ok (r', false) /\ r_dst r' = [e'] /\ r_q r' = r_q r /\ r_n r' = r_n r /\ be_blot e' = be_blot e /\
        docs_keys (be_docs e') = place d' :: map place l1).
  Proof.
    intros Eq Es R L1 Lf Pl Lk. destruct k as [|k]; [lia|]. destruct fuel as [|fuel]; [lia|].
    pose proof R as (ps & Ep & R').
    (* alone, from any first record *)
    assert (G : forall d' path st en, place d' = (path, st, en) -> exists ds1 ds ps', put_doc grow false None path st en = Ok ds1 /\
      fill_loop grow ix fuel false (si_file s) ps ds1 = Ok (ds, ps', true) /\ docs_len ds = length (d1 :: l1) /\ docs_keys ds = place d' :: map place l1).
    { intros d' path st en Ed. destruct (put_doc_free grow None path st en Logic.I) as (ds1 & E1 & W1 & L2 & _).
      destruct (fill_free (si_file s) l1 fuel ps ds1 R') as (ds & ps' & Ef & W & Ld); auto; [|cbn [length] in Lf; lia|].
      { intros x Hx. apply Pl. right. exact Hx. }
      exists ds1, ds, ps'. split; [exact E1|]. split; [exact Ef|].
      assert (K : docs_keys ds = place d' :: map place l1).
      { unfold docs_keys. rewrite Ld, L2. cbn [docs_list app map]. rewrite Ed. unfold doc_key at 1. cbn [d_path d_start d_end]. f_equal.
        rewrite map_map. apply map_ext. intros x. unfold key_doc, doc_key. cbn [d_path d_start d_end]. destruct (place x) as [[? ?] ?]. reflexivity. }
      split; [|exact K]. apply (f_equal (@length _)) in K. unfold docs_keys in K. rewrite map_length in K. cbn [length] in K. rewrite map_length in K.
      destruct ds as [[m back]|]; cbn [docs_list docs_len docs_wf length] in *; [rewrite firstn_length in K; lia|discriminate K]. }
    assert (Cc : forall d', docid2doc ix d' = Ok (place d') -> forall fl, dmd_lookup (ix_dmd ix) d' = Ok fl ->
      exists path, fn_abs (ix_fnames ix) (f_fid fl) = Ok path /\ place d' = (path, f_start fl, f_end fl)).
    { intros d' Ed fl El. unfold docid2doc in Ed. rewrite El in Ed. cbn [bind] in Ed. destruct (fn_abs (ix_fnames ix) (f_fid fl)) as [path| | |]; try discriminate.
      cbn [bind] in Ed. exists path. split; [reflexivity|congruence]. }
    set (i := N.to_nat (q_i q)) in *. set (bl := fill_blot_id (q_n q) (q_i q) (u32 (N.of_nat (rs_blot rs)))).
    set (src := fun ps' : posts => MkReadState (rs_blot rs) (rs_at rs) (rs_total rs) ps').
    set (qs := fun ps' : posts => MkQ (upd i (Some (src ps')) (q_states q)) (q_i q) (q_n q) (q_nil q)).
    assert (A : exists q', forall ps', advance ix (qs ps') (src ps') i = Ok q').
    { unfold advance, src, qs. cbn [rs_at rs_total q_states q_i q_n q_nil]. rewrite Es.
      destruct (_ =? 65535); [eexists; intros ps'; cbn [bind]; rewrite upd_twice; reflexivity|].
      destruct (_ <=? 1); [eexists; intros ps'; cbn [bind]; rewrite upd_twice; reflexivity|].
      eexists; intros ps'; cbn [bind]; rewrite upd_twice; reflexivity. }
    destruct A as [q' A].
    assert (H : exists c, next_prog grow ix (S fuel) (S k) q [MkEntry b0 None] = Look d1 c /\
      forall d' fl, dmd_lookup (ix_dmd ix) d' = Ok fl -> docid2doc ix d' = Ok (place d') ->
      exists ds, docs_keys ds = place d' :: map place l1 /\
        alone (ix_dmd ix) (c (Ok fl)) = match k with O => Loop | S _ => Ok (MkRun q' [MkEntry bl ds] 1, false) end).
    { unfold next_prog. cbn [next_loop_prog]. unfold next_iter_prog. cbn [r_dst r_n r_q nth_error]. fold i. rewrite Eq. cbv zeta. cbn [be_docs is_nil negb].
      unfold fill_blot_prog. rewrite Es. cbv zeta. cbn [be_docs is_nil negb fill_prog andb]. rewrite Ep. cbn [pbind].
      eexists. split; [reflexivity|]. intros d' fl El Ed. cbn beta. destruct (Cc d' Ed fl El) as (path & Ef & Epl).
      destruct (G d' path _ _ Epl) as (ds1 & ds & ps' & E1 & E2 & Ln & K). exists ds. split; [exact K|].
      cbn [bind]. rewrite Ef. cbn [bind]. rewrite E1. rewrite !alone_pbind, fill_prog_alone, E2. cbn [bind]. unfold lift. cbn [alone].
      change (MkReadState (rs_blot rs) (rs_at rs) (rs_total rs) ps') with (src ps'). change (MkQ (upd i (Some (src ps')) (q_states q)) (q_i q) (q_n q) (q_nil q)) with (qs ps').
      rewrite A. cbn [bind alone be_docs]. rewrite Ln. assert ((length (d1 :: l1) <=? 1)%nat = false) as -> by (apply Nat.leb_gt; cbn [length]; lia).
      cbn [bind]. rewrite next_loop_prog_alone.
      destruct k as [|k]; reflexivity. }
    destruct H as (c & Ec & H). pose proof (next_prog_alone grow ix (S fuel) (S k) q [MkEntry b0 None]) as Al. rewrite Ec in Al. cbn [alone] in Al.
    pose proof (Pl d1 (or_introl eq_refl)) as P1.
    assert (exists fl, dmd_lookup (ix_dmd ix) d1 = Ok fl) as [fl1 El1] by (unfold docid2doc in P1; destruct (dmd_lookup (ix_dmd ix) d1); try discriminate; eauto).
    rewrite El1 in Al. destruct (H d1 fl1 El1 P1) as (ds & K & X). destruct k as [|k]; [lia|]. rewrite X in Al.
    exists c, (MkRun q' [MkEntry bl ds] 1), (MkEntry bl ds). split; [symmetry; exact Al|]. split; [exact Ec|]. split; [reflexivity|]. split; [reflexivity|]. split; [exact K|]. split; [reflexivity|]. intros d' fl El Ed.
    destruct (H d' fl El Ed) as (ds' & K' & X'). exists (MkRun q' [MkEntry bl ds'] 1), (MkEntry bl ds'). repeat (split; [first [exact X'|reflexivity]|]). exact K'.
  Qed.
  (** Where a new query starts, if there is a blot with two documents. *)
  Lemma start_first fuel dup : (forall s b, (s < n)%nat -> (b < num_slots)%nat -> (length (content s b) < fuel)%nat) -> duplicated n content dup ->
    let q := start_query ix in
    exists rs s d1 l1, nth_error (q_states q) (N.to_nat (q_i q)) = Some (Some rs) /\ nth_error (ix_shards ix) (N.to_nat (q_i q)) = Some s /\
      reads (si_file s) (rs_posts rs) (d1 :: l1) /\ (1 <= length l1)%nat /\ (length (d1 :: l1) < fuel)%nat /\
      (forall d, In d (d1 :: l1) -> docid2doc ix d = Ok (place d)) /\
      (length (at_blot n content dup) <= length (d1 :: l1))%nat /\ exists s b, (s < n)%nat /\ (b < num_slots)%nat /\ content s b = d1 :: l1.
  Proof.
    intros Hf [Ld Dd] q. destruct (start_QI grow ix place n content I fuel Hf) as [Q _]. fold q in Q. pose proof (io_pos _ _ _ _ I) as Pn.
    set (sd := shard_of n dup). set (bd := slot_of n dup). assert (Ls : (sd < n)%nat) by apply (shard_lt grow ix place n content I dup).
    assert (Lb : (bd < num_slots)%nat) by apply (slot_lt grow n dup). change (at_blot n content dup) with (content sd bd) in Dd.
    destruct (permof_spec grow ix place n content I fuel Hf sd Ls) as (sid & Ed & Epd & Lp & _ & Srt).
    assert (Ib : In bd (permof ix sd)).
    { rewrite Epd. destruct (io_perm _ _ _ _ I sd sid Ed) as [Pm _]. apply (Permutation.Permutation_in bd (Permutation.Permutation_sym Pm)). apply in_seq. lia. }
    apply (In_nth _ _ 0%nat) in Ib. destruct Ib as (a & La & Ea). rewrite Lp in La.
    pose proof (Srt 0%nat a ltac:(lia)) as S0. rewrite Ea in S0.
    set (i := N.to_nat (q_i q)). assert (Li : (i < n)%nat) by (pose proof (qi_i _ _ _ _ _ _ Q); unfold i; lia).
    destruct (qi_max _ _ _ _ _ _ Q sd 0%nat Ls eq_refl) as [Z|(a' & Ea' & Mx)]; [rewrite Z in S0; cbn [length] in S0; lia|].
    assert (a' = 0%nat) as -> by congruence. fold i in Mx.
    destruct (permof_spec grow ix place n content I fuel Hf i Li) as (si & Ei & Epi & Lpi & Rg & _).
    set (b := nth 0 (permof ix i) 0%nat) in *. assert (Lb' : (b < num_slots)%nat) by (apply Rg, nth_In; rewrite Lpi; lia).
    destruct (io_reads _ _ _ _ I i si Ei b Lb') as [R _].
    pose proof (Hf i b Li Lb') as Lf.
    pose proof (fun d => io_place _ _ _ _ I i b d Li Lb') as Pl.
    destruct (content i b) as [|d1 l1] eqn:Ec; [cbn [length] in Mx; lia|]. cbn [length] in Mx.
    exists (read_state_at si 0), si, d1, l1. split; [rewrite (qi_st _ _ _ _ _ _ Q i si Ei); reflexivity|]. split; [exact Ei|].
    split; [|split; [lia|split; [exact Lf|split; [exact Pl|split; [change (length (content sd bd) <= length (d1 :: l1))%nat; cbn [length]; lia|exists i, b; auto]]]]].
    unfold read_state_at, read_state_for_blot_at. cbn [rs_posts]. rewrite <- Epi. exact R.
  Qed.
End Q.
