(** Query.Next with entries that have been used before. *)
From Coq Require Import Permutation.
From Verif Require Import Model.Base Model.Address Model.Post Model.Poster Model.Shard Model.Dmd Model.Fnames Model.Config Model.Index Model.Query.
From Verif Require Import Spec.Reading Spec.Querying Spec.Limited Spec.Reuse Proof.Tactics Proof.AddressP Proof.QueryP Proof.QueryP2 Proof.QueryP3 Proof.LimitP Proof.LimitP2.
Local Open Scope N_scope.

Lemma keys_len ds : docs_wf ds -> length (docs_keys ds) = docs_len ds.
Proof. unfold docs_keys. rewrite map_length. destruct ds as [[m back]|]; cbn [docs_wf docs_list docs_len]; [|reflexivity]. intros L. rewrite firstn_length. lia. Qed.

(** Any index at all: what is in an entry with two documents stays in it. *)
Section Any.
  Variable grow : nat -> nat.
  Variable ix : index.
  Variable fuel : nat.
  Definition begins (ds ds' : docs) : Prop := docs_wf ds' /\ exists l, docs_list ds' = docs_list ds ++ l.
  Lemma begins_len ds ds' : docs_wf ds -> begins ds ds' -> (docs_len ds <= docs_len ds')%nat.
  Proof.
    intros W [W' [l E]]. rewrite <- (keys_len ds W), <- (keys_len ds' W'). unfold docs_keys. rewrite !map_length, E, app_length. lia.
  Qed.
  Lemma fill_begins f : forall k ps n back ds ps' e, (n <= length back)%nat -> fill_loop grow ix k true f ps (Some (n, back)) = Ok (ds, ps', e) -> begins (Some (n, back)) ds.
  Proof.
    induction k as [|k IH]; intros ps n back ds ps' e L E; [discriminate|]. cbn [fill_loop docs_len docs_cap andb] in E.
    assert (Rf : begins (Some (n, back)) (Some (n, back))) by (split; [exact L|exists []; rewrite app_nil_r; reflexivity]).
    destruct (Nat.ltb_spec n (length back)) as [Lt|Ge]; cbn [negb] in E; [|inv E; exact Rf].
    destruct (posts_next ps f) as [[did ps1]|[|]| |]; try discriminate; [|inv E; exact Rf].
    destruct (docid2doc ix did) as [[[p a] b]|e1| |]; try discriminate. cbn [bind] in E. rewrite put_doc_lim in E by exact Lt. cbn [bind] in E.
    apply IH in E; [|rewrite upd_length; lia]. destruct E as [W [l E]]. split; [exact W|]. cbn [docs_list] in *.
    rewrite firstn_upd_S in E by exact Lt. rewrite E, <- app_assoc. eauto.
  Qed.
  Lemma used_parts e : used e -> exists n back, be_docs e = Some (n, back) /\ (2 <= n <= length back)%nat.
  Proof.
    intros [W L]. unfold proper in W. rewrite (keys_len _ W) in L. destruct (be_docs e) as [[n back]|]; [|cbn in L; lia]. exists n, back. cbn [docs_wf docs_len] in *. auto.
  Qed.
  Definition kept (dst : list blot_entry) (r : qrun) : Prop := length (r_dst r) = length dst /\
    (forall i e, nth_error dst i = Some e -> exists e', nth_error (r_dst r) i = Some e' /\ begins (be_docs e) (be_docs e')) /\
    (forall i e, (r_n r <= i)%nat -> nth_error (r_dst r) i = Some e -> used e).
  Lemma iter_kept dst r r' v : kept dst r -> next_iter grow ix fuel r = Ok (r', v) -> kept dst r'.
  Proof.
    intros K E. unfold next_iter in E. destruct (nth_error (r_dst r) (r_n r)) as [entry|] eqn:Ee; [|inv E; exact K].
    destruct (nth_error (q_states (r_q r)) (N.to_nat (q_i (r_q r)))) as [[rs|]|]; [| |discriminate].
    2:{ destruct (_ =? q_n (r_q r)); inv E; exact K. }
    destruct K as (K1 & K2 & K3). destruct (used_parts _ (K3 _ _ (le_n _) Ee)) as (m & back & Ed & Lm).
    unfold fill_blot in E. destruct (nth_error (ix_shards ix) (N.to_nat (q_i (r_q r)))) as [s|]; [|discriminate]. rewrite Ed in E. cbn [is_nil negb] in E.
    destruct (fill_loop grow ix fuel true (si_file s) (rs_posts rs) (Some (m, back))) as [[[ds ps] eo]| | |] eqn:Ef; try discriminate. cbn [bind] in E.
    apply fill_begins in Ef; [|lia]. rewrite <- Ed in Ef. 
    assert (Ld : (2 <= docs_len ds)%nat). { pose proof (begins_len (be_docs entry) ds) as X. rewrite Ed in *. cbn [docs_wf docs_len] in X. specialize (X ltac:(lia) Ef). lia. }
    match type of E with (match match ?a with _ => _ end with _ => _ end) = _ => destruct a as [q'| | |]; try discriminate | (do! _ <- (do! _ <- ?a; _); _) = _ => destruct a as [q'| | |]; try discriminate end.
    cbn [bind be_docs] in E. destruct (Nat.leb_spec (docs_len ds) 1); [lia|]. inv E. unfold kept. cbn [r_dst r_n]. rewrite upd_length. split; [exact K1|].
    assert (Lr : (r_n r < length (r_dst r))%nat) by (apply nth_error_Some; congruence). split.
    - intros i e Ei. destruct (K2 _ _ Ei) as (e' & E' & B). destruct (Nat.eq_dec (r_n r) i) as [<-|Ni].
      + rewrite nth_error_upd_eq by exact Lr. eexists. split; [reflexivity|]. cbn [be_docs]. assert (e' = entry) as -> by congruence.
        destruct B as [_ [l B]]. destruct Ef as [W [l' Ef]]. split; [exact W|]. rewrite Ef, B, <- app_assoc. eauto.
      + rewrite nth_error_upd_ne by exact Ni. eauto.
    - intros i e Li Ei. rewrite nth_error_upd_ne in Ei by lia. apply (K3 i); [lia|exact Ei].
  Qed.
  Lemma loop_kept dst : forall k r r' eof, kept dst r -> next_loop grow ix fuel k r = Ok (r', eof) -> kept dst r'.
  Proof.
    induction k as [|k IH]; intros r r' eof K E; [discriminate|]. cbn [next_loop] in E. destruct (next_iter grow ix fuel r) as [[r1 v]| | |] eqn:Ei; try discriminate. cbn [bind] in E.
    apply (iter_kept _ _ _ _ K) in Ei. destruct v; [eapply IH; eauto|inv E; exact Ei|inv E; exact Ei].
  Qed.
  Theorem next_begins q dst k r eof : Forall used dst -> query_next grow ix fuel k q dst = Ok (r, eof) ->
    forall i e, nth_error dst i = Some e -> exists e' l, nth_error (r_dst r) i = Some e' /\ docs_list (be_docs e') = docs_list (be_docs e) ++ l.
  Proof.
    intros U E i e Ei. assert (K : kept dst r).
    { eapply loop_kept; [|exact E]. split; [reflexivity|]. cbn [r_dst r_n]. rewrite Forall_forall in U. split.
      - intros j x Ej. exists x. split; [exact Ej|]. split; [apply U; eapply nth_error_In, Ej|exists []; rewrite app_nil_r; reflexivity].
      - intros j x _ Ej. apply U. eapply nth_error_In, Ej. }
    destruct K as (_ & K & _). destruct (K _ _ Ei) as (e' & E' & _ & l & El). eauto.
  Qed.

  (** Full entries: nothing is read. *)
  Lemma upd_same {A} : forall i (l : list A) x, nth_error l i = Some x -> upd i x l = l.
  Proof. induction i as [|i IH]; intros [|y l] x E; cbn in *; try discriminate; [inv E; reflexivity|]. rewrite IH by exact E. reflexivity. Qed.
  Definition now (q : qstate) (rs : read_state) : N := fill_blot_id (q_n q) (q_i q) (u32 (N.of_nat (rs_blot rs))).
  Lemma full_iter q rs s dst n e : (0 < fuel)%nat -> nth_error (q_states q) (N.to_nat (q_i q)) = Some (Some rs) -> nth_error (ix_shards ix) (N.to_nat (q_i q)) = Some s ->
    nth_error dst n = Some e -> full e -> next_iter grow ix fuel (MkRun q dst n) = Ok (MkRun q (upd n (MkEntry (now q rs) (be_docs e)) dst) (S n), Again).
  Proof.
    intros Lf Er Es Ee [U Fe]. destruct (used_parts _ U) as (m & back & Ed & Lm). rewrite Ed in *. cbn [docs_len docs_cap] in Fe.
    unfold next_iter. cbn [r_q r_dst r_n]. rewrite Ee, Er. unfold fill_blot. rewrite Es, Ed. cbn [is_nil negb]. destruct fuel as [|k]; [lia|].
    cbn [fill_loop docs_len docs_cap andb]. destruct (Nat.ltb_spec m (length back)); [lia|]. cbn [negb bind be_docs docs_len].
    destruct (Nat.leb_spec m 1); [lia|]. destruct rs as [rb ra rt rp]. cbn [rs_blot rs_at rs_total rs_posts]. rewrite (upd_same _ _ _ Er). destruct q; reflexivity.
  Qed.
  Lemma full_loop q rs s : (0 < fuel)%nat -> nth_error (q_states q) (N.to_nat (q_i q)) = Some (Some rs) -> nth_error (ix_shards ix) (N.to_nat (q_i q)) = Some s ->
    forall rest pre k, Forall full rest -> (length rest < k)%nat ->
    next_loop grow ix fuel k (MkRun q (pre ++ rest) (length pre)) = Ok (MkRun q (pre ++ map (fun e => MkEntry (now q rs) (be_docs e)) rest) (length pre + length rest), false).
  Proof.
    intros Lf Er Es. induction rest as [|e rest IH]; intros pre [|k] F L; cbn [length] in L; try lia; cbn [next_loop].
    - unfold next_iter. cbn [r_dst r_n map length]. rewrite app_nil_r. assert (nth_error pre (length pre) = None) as -> by (apply nth_error_None; lia). cbn [bind]. rewrite Nat.add_0_r. reflexivity.
    - inv F. rewrite (full_iter q rs s (pre ++ e :: rest) (length pre) e Lf Er Es); [|rewrite nth_error_app2, Nat.sub_diag by lia; reflexivity|assumption]. cbn [bind].
      assert (upd (length pre) (MkEntry (now q rs) (be_docs e)) (pre ++ e :: rest) = (pre ++ [MkEntry (now q rs) (be_docs e)]) ++ rest) as ->.
      { clear. induction pre as [|y pre IH]; cbn [length app upd]; [reflexivity|]. rewrite IH. reflexivity. }
      replace (S (length pre)) with (length (pre ++ [MkEntry (now q rs) (be_docs e)])) by (rewrite app_length; cbn; lia).
      rewrite IH; [|assumption|lia]. rewrite <- app_assoc, app_length. cbn [app map length]. do 3 f_equal. lia.
  Qed.
  Theorem full_next q rs s dst k : (0 < fuel)%nat -> nth_error (q_states q) (N.to_nat (q_i q)) = Some (Some rs) -> nth_error (ix_shards ix) (N.to_nat (q_i q)) = Some s ->
    Forall full dst -> (length dst < k)%nat ->
    query_next grow ix fuel k q dst = Ok (MkRun q (map (fun e => MkEntry (now q rs) (be_docs e)) dst) (length dst), false).
  Proof. intros Lf Er Es F L. exact (full_loop q rs s Lf Er Es dst [] k F L). Qed.
End Any.

(** A good index: entries of all kinds. *)
Section Good.
  Variable grow : nat -> nat.
  Variables (ix : index) (place : N -> bytes * N * N) (n : nat) (content : nat -> nat -> list N).
  Hypothesis I : index_ok ix n content place.
  Variable fuel : nat.
  Hypothesis Hf : forall s b, (s < n)%nat -> (b < num_slots)%nat -> (length (content s b) < fuel)%nat.
  Notation QL := (QL ix n content).
  Notation Phi := (Phi n fuel).
  Notation held_at := (held_at ix content).
  Notation gone := (gone ix content).
  Notation after := (after ix content).

  Definition space (e : blot_entry) : option nat := match be_docs e with None => None | Some (len, back) => Some (length back - len)%nat end.
  Lemma fill_any e f suf ps : proper e -> reads f ps suf -> (forall d, In d suf -> docid2doc ix d = Ok (place d)) -> (length suf < fuel)%nat ->
    exists ds ps', fill_loop grow ix fuel (negb (is_nil (be_docs e))) f ps (be_docs e) = Ok (ds, ps', ended (space e) suf) /\
      docs_wf ds /\ docs_keys ds = docs_keys (be_docs e) ++ map place (part (space e) suf) /\
      (ended (space e) suf = false -> reads f ps' (left (space e) suf)) /\
      docs_wf (reset (negb (is_nil (be_docs e))) ds) /\ docs_len (reset (negb (is_nil (be_docs e))) ds) = 0%nat.
  Proof.
    intros Pr R Pl L. unfold proper, space in *. destruct (be_docs e) as [[m back]|]; cbn [is_nil negb].
    - cbn [docs_wf] in Pr. destruct (fill_loop_lim grow ix place f suf fuel ps m back R Pl Pr L) as (ps' & E & R').
      rewrite E. eexists _, _. split; [reflexivity|]. cbn [part left ended docs_wf].
      assert (Lp : (length (firstn (length back - m) suf) <= length back - m)%nat) by (rewrite firstn_length; lia).
      split; [rewrite store_length; lia|]. split.
      { unfold docs_keys. cbn [docs_list]. pose proof (store_keys grow (map place (firstn (length back - m) suf)) m back) as X. rewrite map_length in X. apply X. lia. }
      split; [intros _; exact R'|]. cbn [reset docs_wf docs_len]. split; [lia|reflexivity].
    - destruct (fill_loop_free grow ix place n content fuel Hf f suf fuel ps None R Pl Logic.I L) as (ds & ps' & E & W & Ld). rewrite E. eexists _, _. split; [reflexivity|]. cbn [part ended].
      cbn [docs_list app] in Ld. split; [exact W|]. split.
      { unfold docs_keys. rewrite Ld, map_map. cbn [docs_list map app]. apply map_ext. intros d. destruct (place d) as [[p q] r]. reflexivity. }
      split; [discriminate|]. cbn [reset]. split; [exact Logic.I|reflexivity].
  Qed.
  Lemma iter_any r h entry a suf : QL (r_q r) h -> nth_error (r_dst r) (r_n r) = Some entry -> proper entry ->
    let i := N.to_nat (q_i (r_q r)) in h i = Some (a, suf) ->
    let h1 := gone h i a (space entry) suf in
    exists q1, QL q1 h1 /\ q_nil q1 = q_nil (r_q r) /\ (if ended (space entry) suf then q1 = set_max q1 else q_i q1 = q_i (r_q r)) /\
    if (length (docs_keys (be_docs entry)) + length (part (space entry) suf) <=? 1)%nat
    then exists q2 e, next_iter grow ix fuel r = Ok (MkRun q2 (upd (r_n r) e (r_dst r)) (r_n r), Again) /\
           QL q2 (hset h1 (N.to_nat (q_i q1)) (after i a (N.to_nat (q_i q1)))) /\ q_nil q2 = q_nil (r_q r) /\ q2 = set_max q2 /\ proper e /\ docs_keys (be_docs e) = []
    else exists e, next_iter grow ix fuel r = Ok (MkRun q1 (upd (r_n r) e (r_dst r)) (S (r_n r)), Again) /\ proper e /\ docs_cap (be_docs e) = match be_docs entry with None => docs_cap (be_docs e) | Some (_, back) => length back end /\
           be_blot e = blot_num n i (slot ix i a) /\ docs_keys (be_docs e) = docs_keys (be_docs entry) ++ map place (part (space entry) suf) /\
           exists f ps ps', reads f ps suf /\ fill_loop grow ix fuel (negb (is_nil (be_docs entry))) f ps (be_docs entry) = Ok (be_docs e, ps', ended (space entry) suf).
  Proof.
    intros Q Ee Fr i Hi h1. unfold next_iter. rewrite Ee. set (q := r_q r) in *. pose proof (ql_i _ _ _ _ _ Q) as Li0. assert (Li : (i < n)%nat) by (unfold i; lia).
    destruct (ql_st _ _ _ _ _ Q i Li) as (o & Eo & Ro). fold i. rewrite Eo. rewrite Hi in Ro. destruct o as [rs|]; [|destruct Ro]. cbn [reps] in Ro.
    destruct Ro as (La & Ra & Rb & Rt & (pre & Rp) & Rr).
    destruct (nth_shard grow ix place n content I i Li) as [si Esi]. assert (Ef : file_of ix i = si_file si) by (unfold file_of; rewrite Esi; reflexivity).
    unfold fill_blot. rewrite Esi, fill_blot_id_u32.
    assert (Hl : (length suf <= length (held_at i a))%nat) by (rewrite Rp, app_length; lia). pose proof (held_fuel grow ix place n content I fuel Hf i a Li La) as Hfu.
    destruct (fill_any entry (si_file si) suf (rs_posts rs) Fr) as (ds & ps' & E & W & Kd & Rn & Wr & Lr).
    { rewrite <- Ef. exact Rr. } { intros d Hd. apply (held_place grow ix place n content I fuel Hf i a d Li La). rewrite Rp. apply in_or_app. right. exact Hd. } { lia. }
    assert (Ld : docs_len ds = (length (docs_keys (be_docs entry)) + length (part (space entry) suf))%nat).
    { rewrite <- (keys_len ds W), Kd, app_length, map_length. reflexivity. }
    assert (Cp : docs_cap ds = match be_docs entry with None => docs_cap ds | Some (_, back) => length back end).
    { unfold proper in Fr. destruct (be_docs entry) as [[m back]|]; [|reflexivity]. cbn [is_nil negb] in E.
      destruct (fill_loop_lim grow ix place (si_file si) suf fuel (rs_posts rs) m back) as (ps2 & E2 & _).
      { rewrite <- Ef. exact Rr. } { intros d Hd. apply (held_place grow ix place n content I fuel Hf i a d Li La). rewrite Rp. apply in_or_app. right. exact Hd. } { exact Fr. } { lia. }
      rewrite E2 in E. injection E as <- _. cbn [docs_cap]. apply store_length. }
    rewrite E. cbn [bind]. set (src' := MkReadState (rs_blot rs) (rs_at rs) (rs_total rs) ps').
    set (q0 := MkQ (upd i (Some src') (q_states q)) (q_i q) (q_n q) (q_nil q)).
    assert (L0 : length (q_states q0) = n) by (unfold q0; cbn [q_states]; rewrite upd_length; apply Q).
    assert (S0 : forall t, (t < n)%nat -> t <> i -> exists o, nth_error (q_states q0) t = Some o /\ reps ix content t o (h t)).
    { intros t Lt Nt. unfold q0. cbn [q_states]. rewrite nth_error_upd_ne by auto. apply (ql_st _ _ _ _ _ Q t Lt). }
    assert (Q1 : exists q1, (if ended (space entry) suf then advance ix q0 src' i else Ok q0) = Ok q1 /\ QL q1 h1 /\ q_nil q1 = q_nil q /\
      (if ended (space entry) suf then q1 = set_max q1 else q_i q1 = q_i q)).
    { unfold h1, LimitP.gone. destruct (ended (space entry) suf) eqn:En.
      - destruct (advance_spec grow ix place n content I fuel Hf q0 h i a src' i L0 (ql_n _ _ _ _ _ Q) (ql_nil _ _ _ _ _ Q) S0 Li La Ra Rt) as (q1 & E1 & Q1 & M1 & N1). exists q1. auto.
      - exists q0. split; [reflexivity|]. split; [|split; reflexivity]. constructor; [apply Q|exact L0| |apply Q|apply Q].
        intros t Lt. unfold hset. destruct (Nat.eqb_spec t i) as [->|Nt]; [|apply S0; auto]. exists (Some src'). split.
        + unfold q0. cbn [q_states]. apply nth_error_upd_eq. rewrite (ql_len _ _ _ _ _ Q). exact Li.
        + unfold src'. cbn [reps]. unfold rep. cbn [rs_at rs_blot rs_total rs_posts]. split; [exact La|]. split; [exact Ra|]. split; [exact Rb|]. split; [exact Rt|]. split.
          * unfold left. destruct (space entry) as [c|]; [|exists (held_at i a); rewrite app_nil_r; reflexivity].
            exists (pre ++ firstn c suf). rewrite <- app_assoc, firstn_skipn. exact Rp.
          * rewrite Ef. exact (Rn eq_refl). }
    destruct Q1 as (q1 & E1 & Q1 & N1 & M1). exists q1. split; [exact Q1|]. split; [exact N1|]. split; [exact M1|].
    rewrite E1. cbn [bind be_docs be_blot]. rewrite Ld.
    destruct (Nat.leb_spec (length (docs_keys (be_docs entry)) + length (part (space entry) suf)) 1) as [Sm|Bg].
    - pose proof (ql_i _ _ _ _ _ Q1) as Li1.
      destruct (advance_spec grow ix place n content I fuel Hf q1 h1 i a rs (N.to_nat (q_i q1)) (ql_len _ _ _ _ _ Q1) (ql_n _ _ _ _ _ Q1) (ql_nil _ _ _ _ _ Q1)) as (q2 & E2 & Q2 & M2 & N2); auto; [|lia|].
      { intros t Lt _. apply (ql_st _ _ _ _ _ Q1 t Lt). }
      rewrite E2. cbn [bind]. eexists q2, _. split; [reflexivity|]. split; [exact Q2|]. split; [congruence|]. split; [exact M2|]. split; [exact Wr|].
      apply length_zero_iff_nil. cbn [be_docs]. change (length (docs_keys (reset (negb (is_nil (be_docs entry))) ds)) = 0%nat). rewrite keys_len by exact Wr. exact Lr.
    - eexists. split; [reflexivity|]. cbn [be_blot be_docs]. split; [exact W|]. split; [exact Cp|]. split; [|split; [exact Kd|exists (si_file si), (rs_posts rs), ps'; split; [rewrite <- Ef; exact Rr|exact E]]].
      rewrite (ql_n _ _ _ _ _ Q), Rb. replace (q_i q) with (N.of_nat i) by (unfold i; lia). apply (blot_num_eq grow ix place n content I fuel Hf); [exact Li|apply (slot_lt grow ix place n content I fuel Hf); assumption].
  Qed.

  (** The entries of the destination of a call: those already filled, and those to come. *)
  Record ran (dst : list blot_entry) (r : qrun) (h : nat -> astate) : Prop := {
    rn_q : QL (r_q r) h;
    rn_n : (r_n r <= length (r_dst r))%nat;
    rn_done : forall i e, (i < r_n r)%nat -> nth_error (r_dst r) i = Some e -> exists e0, nth_error dst i = Some e0 /\ proper e /\ appended n content place e0 e;
    rn_left : forall i e, (r_n r <= i)%nat -> nth_error (r_dst r) i = Some e -> proper e /\ exists e0, nth_error dst i = Some e0 /\
      (docs_keys (be_docs e) = docs_keys (be_docs e0) \/ (length (docs_keys (be_docs e0)) <= 1)%nat /\ docs_keys (be_docs e) = []) }.
  Lemma next_any dst : forall m r h, (Phi h + N.to_nat (gap n (r_q r)) + (length (r_dst r) - r_n r) < m)%nat -> ran dst r h ->
    exists k r' h' eof, next_loop grow ix fuel k r = Ok (r', eof) /\ ran dst r' h'.
  Proof.
    induction m as [|m IH]; intros r h Lm R; [lia|]. destruct R as [Q Ln Dn Lf].
    destruct (nth_error (r_dst r) (r_n r)) as [entry|] eqn:Ee.
    2:{ exists 1%nat, r, h, false. cbn [next_loop]. unfold next_iter. rewrite Ee. cbn [bind]. split; [reflexivity|]. constructor; assumption. }
    assert (Ln' : (r_n r < length (r_dst r))%nat) by (apply nth_error_Some; congruence).
    set (i := N.to_nat (q_i (r_q r))). pose proof (ql_i _ _ _ _ _ Q) as Li0. assert (Li : (i < n)%nat) by (unfold i; lia).
    destruct (h i) as [[a suf]|] eqn:Hi.
    - destruct (QL_room ix n content _ _ _ _ _ Q Li Hi) as (La & pre & Ep). destruct (Lf _ _ (le_n _) Ee) as (Fe & e0 & E0 & Rel).
      destruct (iter_any r h entry a suf Q Ee Fe Hi) as (q1 & Q1 & N1 & M1 & S1). fold i in Q1, S1.
      destruct (gone_less grow ix place n content I fuel Hf h i a (space entry) suf Li La Hi) as [G1 G2].
      destruct (Nat.leb_spec (length (docs_keys (be_docs entry)) + length (part (space entry) suf)) 1) as [Sm|Bg].
      + destruct S1 as (q2 & e & E & Q2 & N2 & _ & Fe' & Ke). pose proof (ql_i _ _ _ _ _ Q1) as Li1.
        assert (Lt : (Phi (hset (gone h i a (space entry) suf) (N.to_nat (q_i q1)) (after i a (N.to_nat (q_i q1)))) < Phi h)%nat).
        { apply (skip_less grow ix place n content I fuel Hf); auto; [lia|]. intros En. rewrite En in M1. rewrite M1. reflexivity. }
        destruct (IH (MkRun q2 (upd (r_n r) e (r_dst r)) (r_n r)) (hset (gone h i a (space entry) suf) (N.to_nat (q_i q1)) (after i a (N.to_nat (q_i q1))))) as (k & r' & h' & eof & E2 & C).
        { cbn [r_q r_n r_dst]. rewrite upd_length. assert (gap n q2 = gap n (r_q r)) as -> by (unfold gap; rewrite N2; reflexivity). clear -Lm Lt. lia. }
        { constructor; cbn [r_q r_n r_dst]; [exact Q2|rewrite upd_length; exact Ln| |].
          - intros j x Lj Ej. rewrite nth_error_upd_ne in Ej by lia. eauto.
          - intros j x Lj Ej. destruct (Nat.eq_dec (r_n r) j) as [<-|Nj].
            + rewrite nth_error_upd_eq in Ej by exact Ln'. inv Ej. split; [exact Fe'|]. exists e0. split; [exact E0|]. right. split; [|exact Ke]. destruct Rel as [Rl|[? _]]; [rewrite <- Rl|]; lia.
            + rewrite nth_error_upd_ne in Ej by exact Nj. eauto. }
        exists (S k), r', h', eof. cbn [next_loop]. rewrite E. cbn [bind]. split; [exact E2|exact C].
      + destruct S1 as (e & E & Fe' & _ & Eb & Ed & _).
        assert (Lt : (Phi (gone h i a (space entry) suf) <= Phi h)%nat).
        { destruct (ended (space entry) suf); [specialize (G1 eq_refl)|specialize (G2 eq_refl)]; lia. }
        destruct (IH (MkRun q1 (upd (r_n r) e (r_dst r)) (S (r_n r))) (gone h i a (space entry) suf)) as (k & r' & h' & eof & E2 & C).
        { cbn [r_q r_n r_dst]. rewrite upd_length. assert (gap n q1 = gap n (r_q r)) as -> by (unfold gap; rewrite N1; reflexivity). clear -Lm Lt Ln'. lia. }
        { constructor; cbn [r_q r_n r_dst]; [exact Q1|rewrite upd_length; lia| |].
          - intros j x Lj Ej. destruct (Nat.eq_dec (r_n r) j) as [<-|Nj]; [|rewrite nth_error_upd_ne in Ej by exact Nj; apply (Dn j); [lia|exact Ej]].
            rewrite nth_error_upd_eq in Ej by exact Ln'. inv Ej. exists e0. split; [exact E0|]. split; [exact Fe'|].
            destruct (at_blot_num grow n content fuel Hf i (slot ix i a) Li (slot_lt grow ix place n content I fuel Hf i a Li La)) as [A1 A2].
            unfold appended. rewrite Eb, A1. split; [exact A2|]. split; [rewrite Ed, app_length, map_length; lia|].
            exists (docs_keys (be_docs entry)), pre, (part (space entry) suf), (skipn (length (part (space entry) suf)) suf). split; [exact Rel|]. split; [|exact Ed].
            change (content i (slot ix i a)) with (held_at i a). rewrite Ep. f_equal. unfold part. destruct (space entry) as [c|]; [|rewrite skipn_all, app_nil_r; reflexivity].
            rewrite <- (firstn_skipn c suf) at 1. f_equal. rewrite firstn_length. destruct (Nat.min_spec c (length suf)) as [[X ->]|[X ->]]; [reflexivity|]. rewrite skipn_all, skipn_all2 by exact X. reflexivity.
          - intros j x Lj Ej. rewrite nth_error_upd_ne in Ej by lia. apply Lf; [lia|exact Ej]. }
        exists (S k), r', h', eof. cbn [next_loop]. rewrite E. cbn [bind]. split; [exact E2|exact C].
    - destruct (iter_nil grow ix place n content I fuel Hf r h Q Ln' Hi) as (q & v & E & Q2 & V). destruct V as [->|[-> G]].
      + exists 1%nat, (MkRun q (r_dst r) (r_n r)), h, (r_n r =? 0)%nat. cbn [next_loop]. rewrite E. cbn [bind]. split; [destruct (r_n r =? 0)%nat; reflexivity|]. constructor; assumption.
      + destruct (IH (MkRun q (r_dst r) (r_n r)) h) as (k & r' & h' & eof & E2 & C); cbn [r_q r_n r_dst]; [lia|constructor; assumption|].
        exists (S k), r', h', eof. cbn [next_loop]. rewrite E. cbn [bind]. split; [exact E2|exact C].
  Qed.
  Lemma ran_start q h dst : QL q h -> Forall proper dst -> ran dst (MkRun q dst 0) h.
  Proof.
    intros Q P. constructor; cbn [r_q r_n r_dst]; [exact Q|lia|lia|]. intros i e _ E. rewrite Forall_forall in P. split; [apply P; eapply nth_error_In, E|]. eauto.
  Qed.
  Lemma any_inv q out : queried grow ix fuel (Forall proper) q out -> exists h, QL q h.
  Proof.
    induction 1 as [|q out dst k r eof Q IH D E]; [exists (h0 ix content); apply (start_QL grow ix place n content I fuel Hf)|]. destruct IH as (h & Qh).
    destruct (next_any dst _ (MkRun q dst 0) h (Nat.lt_succ_diag_r _) (ran_start q h dst Qh D)) as (k' & r' & h' & eof' & E' & R).
    pose proof (next_loop_det grow ix fuel _ _ _ _ _ E E') as X. inv X. exists h'. apply R.
  Qed.
  Theorem used_next q out dst : queried grow ix fuel (Forall proper) q out -> Forall proper dst ->
    exists k r eof, query_next grow ix fuel k q dst = Ok (r, eof) /\
    forall i e, (i < r_n r)%nat -> nth_error (r_dst r) i = Some e -> exists e0, nth_error dst i = Some e0 /\ proper e /\ appended n content place e0 e.
  Proof.
    intros Q D. destruct (any_inv _ _ Q) as (h & Qh).
    destruct (next_any dst _ (MkRun q dst 0) h (Nat.lt_succ_diag_r _) (ran_start q h dst Qh D)) as (k' & r' & h' & eof' & E' & R). exists k', r', eof'. split; [exact E'|apply R].
  Qed.
End Good.
