(** Query.Next with empty entries of any room. *)
From Coq Require Import Permutation.
From Verif Require Import Model.Base Model.Address Model.Post Model.Poster Model.Shard Model.Dmd Model.Fnames Model.Config Model.Index Model.Query.
From Verif Require Import Spec.Reading Spec.Querying Proof.Tactics Proof.AddressP Proof.QueryP Proof.QueryP2 Proof.QueryP3.
Local Open Scope N_scope.

Lemma sum_upd (f g : nat -> nat) p n : (p < n)%nat -> (forall s, s <> p -> f s = g s) ->
  (list_sum (map f (seq 0 n)) + g p = list_sum (map g (seq 0 n)) + f p)%nat.
Proof.
  intros L H. assert (G : forall m b, (b <= p < b + m)%nat -> (list_sum (map f (seq b m)) + g p = list_sum (map g (seq b m)) + f p)%nat).
  { induction m as [|m IH]; intros b Lb; [lia|]. cbn [seq map]. unfold list_sum in *. cbn [fold_right]. destruct (Nat.eq_dec b p) as [->|Nb].
    - assert (map f (seq (S p) m) = map g (seq (S p) m)) as ->; [|lia]. apply map_ext_in. intros y Hy. apply in_seq in Hy. apply H. lia.
    - rewrite (H b Nb). specialize (IH (S b) ltac:(lia)). lia. }
  apply G. lia.
Qed.
Definition wt (a : nat) : nat := 3 ^ (num_slots - a).
Lemma wt_S a : (a < num_slots)%nat -> wt a = (3 * wt (S a))%nat.
Proof. unfold wt. generalize num_slots. intros z L. replace (z - a)%nat with (S (z - S a)) by lia. reflexivity. Qed.
Lemma wt_pos a : (0 < wt a)%nat.
Proof. unfold wt. generalize (num_slots - a)%nat. induction n as [|n IH]; [cbn; lia|]. cbn [Nat.pow]. lia. Qed.
Global Opaque wt.

Section L.
  Variable grow : nat -> nat.
  Variables (ix : index) (place : N -> bytes * N * N) (n : nat) (content : nat -> nat -> list N).
  Hypothesis I : index_ok ix n content place.
  Variable fuel : nat.
  Hypothesis Hf : forall s b, (s < n)%nat -> (b < num_slots)%nat -> (length (content s b) < fuel)%nat.
  Notation permof := (permof ix).

  (** The slot at place [a] of the order of shard [s], and a state: at the place, with the
      documents still to be read. *)
  Definition slot (s a : nat) : nat := nth a (permof s) 0%nat.
  Definition held_at (s a : nat) : list N := content s (slot s a).
  Definition astate := option (nat * list N).
  Definition file_of (s : nat) : bytes := match nth_error (ix_shards ix) s with Some si => si_file si | None => [] end.
  Definition rep (s : nat) (rs : read_state) (a : nat) (suf : list N) : Prop :=
    (a < num_slots)%nat /\ rs_at rs = a /\ rs_blot rs = slot s a /\ rs_total rs = nlen (held_at s a) /\
    (exists pre, held_at s a = pre ++ suf) /\ reads (file_of s) (rs_posts rs) suf.
  Definition reps (s : nat) (o : option read_state) (v : astate) : Prop :=
    match o, v with None, None => True | Some rs, Some (a, suf) => rep s rs a suf | _, _ => False end.
  Definition hset (h : nat -> astate) (p : nat) (v : astate) : nat -> astate := fun s => if (s =? p)%nat then v else h s.
  Record QL (q : qstate) (h : nat -> astate) : Prop := {
    ql_n : q_n q = N.of_nat n;
    ql_len : length (q_states q) = n;
    ql_st : forall s, (s < n)%nat -> exists o, nth_error (q_states q) s = Some o /\ reps s o (h s);
    ql_i : q_i q < N.of_nat n;
    ql_nil : q_nil q < p32 }.

  Lemma slot_lt s a : (s < n)%nat -> (a < num_slots)%nat -> (slot s a < num_slots)%nat.
  Proof. intros Ls La. destruct (permof_spec grow ix place n content I fuel Hf s Ls) as (si & _ & _ & Lp & Rg & _). apply Rg, nth_In. rewrite Lp. exact La. Qed.
  Lemma held_fuel s a : (s < n)%nat -> (a < num_slots)%nat -> (length (held_at s a) < fuel)%nat.
  Proof. intros Ls La. apply Hf; [exact Ls|apply slot_lt; assumption]. Qed.
  Lemma held_place s a d : (s < n)%nat -> (a < num_slots)%nat -> In d (held_at s a) -> docid2doc ix d = Ok (place d).
  Proof. intros Ls La. apply (io_place _ _ _ _ I); [exact Ls|apply slot_lt; assumption]. Qed.
  Lemma read_at s a : (s < n)%nat -> (a < num_slots)%nat -> exists si, nth_error (ix_shards ix) s = Some si /\ file_of s = si_file si /\ rep s (read_state_at si a) a (held_at s a).
  Proof.
    intros Ls La. destruct (permof_spec grow ix place n content I fuel Hf s Ls) as (si & E & Ep & Lp & Rg & _). exists si. split; [exact E|].
    assert (Ef : file_of s = si_file si) by (unfold file_of; rewrite E; reflexivity). split; [exact Ef|].
    destruct (io_reads _ _ _ _ I s si E (slot s a) (slot_lt s a Ls La)) as [R C]. unfold rep, read_state_at, read_state_for_blot_at. cbn [rs_at rs_blot rs_total rs_posts].
    rewrite <- Ep. fold (slot s a). split; [exact La|]. split; [reflexivity|]. split; [reflexivity|]. split; [exact C|]. split; [exists []; reflexivity|]. rewrite Ef. exact R.
  Qed.

  (** setMax *)
  Lemma set_max_i q : length (q_states q) = n -> q_i (set_max q) < N.of_nat n.
  Proof.
    intros L. pose proof (io_pos _ _ _ _ I) as Pn. unfold set_max. cbn [q_i].
    destruct (set_max_loop_spec (q_states q) 0 0 0) as [(E & A)|(j & rs & E & Ej & Lt & A)]; cbv zeta in *; rewrite E; [lia|].
    assert (j < length (q_states q))%nat by (apply nth_error_Some; congruence). lia.
  Qed.
  (** advance: shard [p] goes to the place after [a] of shard [s]. *)
  Definition after (s a p : nat) : astate :=
    if (S a =? num_slots)%nat then None else if (length (held_at s a) <=? 1)%nat then None else Some (S a, held_at p (S a)).
  Lemma advance_spec q h s a rs p : length (q_states q) = n -> q_n q = N.of_nat n -> q_nil q < p32 ->
    (forall t, (t < n)%nat -> t <> p -> exists o, nth_error (q_states q) t = Some o /\ reps t o (h t)) ->
    (p < n)%nat -> (a < num_slots)%nat -> rs_at rs = a -> rs_total rs = nlen (held_at s a) ->
    exists q', advance ix q rs p = Ok q' /\ QL q' (hset h p (after s a p)) /\ q' = set_max q' /\ q_nil q' = q_nil q.
  Proof.
    intros Ln Nn Nl St Lp La Ea Et.
    assert (UP : forall o v, reps p o v -> let q' := set_max (MkQ (upd p o (q_states q)) (q_i q) (q_n q) (q_nil q)) in
      QL q' (hset h p v) /\ q' = set_max q' /\ q_nil q' = q_nil q).
    { intros o v R q'. split; [|split; reflexivity]. constructor.
      - exact Nn.
      - unfold q', set_max. cbn [q_states]. rewrite upd_length. exact Ln.
      - intros t Lt. unfold q', set_max. cbn [q_states]. rewrite nth_error_upd. unfold hset. destruct (Nat.eqb_spec p t) as [<-|Np].
        + rewrite Nat.eqb_refl. destruct (nth_error (q_states q) p) eqn:E; [eauto|]. apply nth_error_None in E. lia.
        + destruct (Nat.eqb_spec t p); [congruence|]. apply St; auto.
      - apply set_max_i. cbn [q_states]. rewrite upd_length. exact Ln.
      - exact Nl. }
    unfold advance. rewrite Ea, Et. unfold after.
    assert (Eq1 : (N.of_nat a =? 65535) = (S a =? num_slots)%nat).
    { clear -La. unfold num_slots in *. destruct (N.eqb_spec (N.of_nat a) 65535), (Nat.eqb_spec (S a) (Z.to_nat 65536)); try reflexivity; lia. }
    rewrite Eq1. destruct (Nat.eqb_spec (S a) num_slots) as [E1|E1].
    - cbn [bind]. eexists. split; [reflexivity|]. apply UP. exact Logic.I.
    - assert (Eq2 : (nlen (held_at s a) <=? 1) = (length (held_at s a) <=? 1)%nat).
      { clear. unfold nlen. destruct (N.leb_spec (N.of_nat (length (held_at s a))) 1), (Nat.leb_spec (length (held_at s a)) 1); try reflexivity; lia. }
      rewrite Eq2. destruct (length (held_at s a) <=? 1)%nat.
      + cbn [bind]. eexists. split; [reflexivity|]. apply UP. exact Logic.I.
      + destruct (read_at p (S a) Lp) as (si & E & _ & R). { clear -La E1. revert La E1. generalize num_slots. intros; lia. }
        rewrite E. cbn [bind]. eexists. split; [reflexivity|]. apply UP. rewrite Nat.add_1_r. exact R.
  Qed.

  (** Filling an entry. *)
  Definition fresh (e : blot_entry) : Prop := match be_docs e with None => True | Some (len, _) => len = 0%nat end.
  Definition room (e : blot_entry) : option nat := match be_docs e with None => None | Some (_, back) => Some (length back) end.
  Definition part (c : option nat) (l : list N) : list N := match c with None => l | Some c => firstn c l end.
  Definition left (c : option nat) (l : list N) : list N := match c with None => [] | Some c => skipn c l end.
  Definition ended (c : option nat) (l : list N) : bool := match c with None => true | Some c => (length l <? c)%nat end.
  Definition reset (lim : bool) (ds : docs) : docs := if lim then match ds with None => None | Some (_, back) => Some (0%nat, back) end else None.
  Lemma fill_fresh e f suf ps : fresh e -> reads f ps suf -> (forall d, In d suf -> docid2doc ix d = Ok (place d)) -> (length suf < fuel)%nat ->
    exists ds ps', fill_loop grow ix fuel (negb (is_nil (be_docs e))) f ps (be_docs e) = Ok (ds, ps', ended (room e) suf) /\
      docs_wf ds /\ docs_keys ds = map place (part (room e) suf) /\ docs_len ds = length (part (room e) suf) /\
      (ended (room e) suf = false -> reads f ps' (left (room e) suf)) /\
      forall bl, fresh (MkEntry bl (reset (negb (is_nil (be_docs e))) ds)) /\ room (MkEntry bl (reset (negb (is_nil (be_docs e))) ds)) = room e.
  Proof.
    intros Fr R Pl L. unfold fresh, room in *. destruct (be_docs e) as [[m back]|]; cbn [is_nil negb].
    - subst m. destruct (fill_loop_lim grow ix place f suf fuel ps 0 back R Pl ltac:(lia) L) as (ps' & E & R'). rewrite Nat.sub_0_r in *.
      rewrite E. eexists _, _. split; [reflexivity|]. cbn [part left ended]. cbn [Nat.add docs_wf docs_len].
      assert (Lp : (length (firstn (length back) suf) <= length back)%nat) by (rewrite firstn_length; lia).
      split; [rewrite store_length; exact Lp|]. split.
      { unfold docs_keys. cbn [docs_list]. pose proof (store_keys grow (map place (firstn (length back) suf)) 0 back) as X. rewrite map_length in X. cbn [Nat.add firstn map app] in X. apply X. exact Lp. }
      split; [reflexivity|]. split; [intros _; exact R'|]. intros bl. cbn [reset be_docs]. split; [reflexivity|]. rewrite store_length. reflexivity.
    - destruct (fill_loop_free grow ix place n content fuel Hf f suf fuel ps None R Pl Logic.I L) as (ds & ps' & E & W & Ld). rewrite E. eexists _, _. split; [reflexivity|]. cbn [part ended].
      cbn [docs_list app] in Ld. split; [exact W|].
      assert (K : docs_keys ds = map place suf). { unfold docs_keys. rewrite Ld, map_map. apply map_ext. intros d. destruct (place d) as [[p q] r]. reflexivity. }
      split; [exact K|]. split; [|split; [discriminate|]].
      + apply (f_equal (@length _)) in Ld. rewrite map_length in Ld. destruct ds as [[m back]|]; cbn [docs_list docs_len docs_wf] in *; [rewrite firstn_length in Ld; lia|exact Ld].
      + intros bl. cbn [reset be_docs]. auto.
  Qed.

  (** One round of Next. *)
  Definition blot_num (s b : nat) : N := N.of_nat b * N.of_nat n + N.of_nat s.
  Lemma blot_num_eq s b : (s < n)%nat -> (b < num_slots)%nat -> u32 (u32 (N.of_nat b) * N.of_nat n + N.of_nat s) = blot_num s b.
  Proof.
    intros Ls Lb. pose proof (io_max _ _ _ _ I) as Mx. assert (N.of_nat b < 65536) as Lb' by (clear -Lb; unfold num_slots in Lb; lia).
    unfold u32. rewrite (N.mod_small (N.of_nat b)) by lia. unfold blot_num. apply N.mod_small.
    assert (N.of_nat b * N.of_nat n <= 65535 * N.of_nat n) by (apply N.mul_le_mono_r; lia). lia.
  Qed.
  Lemma iter_nil r h : QL (r_q r) h -> (r_n r < length (r_dst r))%nat -> h (N.to_nat (q_i (r_q r))) = None ->
    exists q v, next_iter grow ix fuel r = Ok (MkRun q (r_dst r) (r_n r), v) /\ QL q h /\
      (v = (if (r_n r =? 0)%nat then ReturnEOF else Return) \/ v = Again /\ gap n (r_q r) = gap n q + 1).
  Proof.
    intros Q Ln Hi. unfold next_iter. destruct (nth_error (r_dst r) (r_n r)) as [entry|] eqn:Ee; [|apply nth_error_None in Ee; lia].
    set (q := r_q r) in *. pose proof (ql_i _ _ Q) as Li. pose proof (ql_nil _ _ Q) as Lnil. pose proof (ql_n _ _ Q) as Nn. pose proof (io_max _ _ _ _ I) as Mx.
    destruct (ql_st _ _ Q (N.to_nat (q_i q)) ltac:(lia)) as (o & Eo & Ro). rewrite Eo. rewrite Hi in Ro. destruct o as [rs|]; [destruct Ro|].
    assert (QI' : forall i nl, i < N.of_nat n -> nl < p32 -> QL (MkQ (q_states q) i (q_n q) nl) h).
    { intros i nl L1 L2. constructor; cbn [q_n q_states q_i q_nil]; auto; apply Q. }
    assert (Lu : u32 (q_nil q + 1) < p32) by (unfold u32, p32; apply N.mod_upper_bound; discriminate).
    destruct (N.eqb_spec (u32 (q_nil q + 1)) (q_n q)) as [En|Nq].
    - eexists _, _. split; [reflexivity|]. split; [apply QI'; assumption|]. left. reflexivity.
    - eexists _, _. split; [reflexivity|]. split.
      + apply QI'; [|exact Lu]. rewrite Nn. destruct (N.eqb_spec (u32 (q_i q + 1)) (N.of_nat n)) as [E|E]; [pose proof (io_pos _ _ _ _ I); lia|].
        unfold u32 in *. rewrite N.mod_small in * by lia. lia.
      + right. split; [reflexivity|]. unfold gap, p32 in *. cbn [q_nil]. rewrite Nn in Nq. unfold u32 in *. clear -Nq Lnil Mx.
        destruct (N.eq_dec (q_nil q + 1) 4294967296) as [X|X].
        * rewrite X in *. replace (q_nil q) with 4294967295 by lia.
          replace (4294967296 mod 4294967296) with 0 by reflexivity.
          rewrite (N.mod_small (N.of_nat n + 4294967296 - 1 - 4294967295)) by lia.
          assert (N.of_nat n <> 0) by (intros Z; rewrite Z in Nq; apply Nq; reflexivity).
          replace (N.of_nat n + 4294967296 - 1 - 0) with (N.of_nat n - 1 + 1 * 4294967296) by lia.
          rewrite N.mod_add, N.mod_small by lia. lia.
        * rewrite (N.mod_small (q_nil q + 1)) in * by lia.
          destruct (N.ltb_spec (q_nil q + 1) (N.of_nat n)) as [Y|Y].
          -- replace (N.of_nat n + 4294967296 - 1 - q_nil q) with (N.of_nat n - 1 - q_nil q + 1 * 4294967296) by lia.
             replace (N.of_nat n + 4294967296 - 1 - (q_nil q + 1)) with (N.of_nat n - 2 - q_nil q + 1 * 4294967296) by lia.
             rewrite !N.mod_add, !N.mod_small by lia. lia.
          -- rewrite !N.mod_small by lia. lia.
  Qed.
  Definition gone (h : nat -> astate) (i a : nat) (c : option nat) (suf : list N) : nat -> astate :=
    hset h i (if ended c suf then after i a i else Some (a, left c suf)).
  Lemma iter_some r h entry a suf : QL (r_q r) h -> nth_error (r_dst r) (r_n r) = Some entry -> fresh entry ->
    let i := N.to_nat (q_i (r_q r)) in h i = Some (a, suf) ->
    let h1 := gone h i a (room entry) suf in
    exists q1, QL q1 h1 /\ q_nil q1 = q_nil (r_q r) /\ (if ended (room entry) suf then q1 = set_max q1 else q_i q1 = q_i (r_q r)) /\
    if (length (part (room entry) suf) <=? 1)%nat
    then exists q2 e, next_iter grow ix fuel r = Ok (MkRun q2 (upd (r_n r) e (r_dst r)) (r_n r), Again) /\
           QL q2 (hset h1 (N.to_nat (q_i q1)) (after i a (N.to_nat (q_i q1)))) /\ q_nil q2 = q_nil (r_q r) /\ q2 = set_max q2 /\ fresh e /\ room e = room entry
    else exists e, next_iter grow ix fuel r = Ok (MkRun q1 (upd (r_n r) e (r_dst r)) (S (r_n r)), Again) /\
           be_blot e = blot_num i (slot i a) /\ docs_keys (be_docs e) = map place (part (room entry) suf).
  Proof.
    intros Q Ee Fr i Hi h1. unfold next_iter. rewrite Ee. set (q := r_q r) in *. pose proof (ql_i _ _ Q) as Li0. assert (Li : (i < n)%nat) by (unfold i; lia).
    destruct (ql_st _ _ Q i Li) as (o & Eo & Ro). fold i. rewrite Eo. rewrite Hi in Ro. destruct o as [rs|]; [|destruct Ro]. cbn [reps] in Ro.
    destruct Ro as (La & Ra & Rb & Rt & (pre & Rp) & Rr).
    destruct (nth_shard grow ix place n content I i Li) as [si Esi]. assert (Ef : file_of i = si_file si) by (unfold file_of; rewrite Esi; reflexivity).
    unfold fill_blot. rewrite Esi, fill_blot_id_u32.
    assert (Hl : (length suf <= length (held_at i a))%nat) by (rewrite Rp, app_length; lia). pose proof (held_fuel i a Li La) as Hfu.
    destruct (fill_fresh entry (si_file si) suf (rs_posts rs) Fr) as (ds & ps' & E & W & Kd & Ld & Rn & Fe).
    { rewrite <- Ef. exact Rr. } { intros d Hd. apply (held_place i a d Li La). rewrite Rp. apply in_or_app. right. exact Hd. } { lia. }
    rewrite E. cbn [bind]. set (src' := MkReadState (rs_blot rs) (rs_at rs) (rs_total rs) ps').
    set (q0 := MkQ (upd i (Some src') (q_states q)) (q_i q) (q_n q) (q_nil q)).
    assert (L0 : length (q_states q0) = n) by (unfold q0; cbn [q_states]; rewrite upd_length; apply Q).
    assert (S0 : forall t, (t < n)%nat -> t <> i -> exists o, nth_error (q_states q0) t = Some o /\ reps t o (h t)).
    { intros t Lt Nt. unfold q0. cbn [q_states]. rewrite nth_error_upd_ne by auto. apply (ql_st _ _ Q t Lt). }
    assert (Q1 : exists q1, (if ended (room entry) suf then advance ix q0 src' i else Ok q0) = Ok q1 /\ QL q1 h1 /\ q_nil q1 = q_nil q /\
      (if ended (room entry) suf then q1 = set_max q1 else q_i q1 = q_i q)).
    { unfold h1, gone. destruct (ended (room entry) suf) eqn:En.
      - destruct (advance_spec q0 h i a src' i L0 (ql_n _ _ Q) (ql_nil _ _ Q) S0 Li La Ra Rt) as (q1 & E1 & Q1 & M1 & N1). exists q1. auto.
      - exists q0. split; [reflexivity|]. split; [|split; reflexivity]. constructor; [apply Q|exact L0| |apply Q|apply Q].
        intros t Lt. unfold hset. destruct (Nat.eqb_spec t i) as [->|Nt]; [|apply S0; auto]. exists (Some src'). split.
        + unfold q0. cbn [q_states]. apply nth_error_upd_eq. rewrite (ql_len _ _ Q). exact Li.
        + unfold src'. cbn [reps]. unfold rep. cbn [rs_at rs_blot rs_total rs_posts]. split; [exact La|]. split; [exact Ra|]. split; [exact Rb|]. split; [exact Rt|]. split.
          * unfold left. destruct (room entry) as [c|]; [|exists (held_at i a); rewrite app_nil_r; reflexivity].
            exists (pre ++ firstn c suf). rewrite <- app_assoc, firstn_skipn. exact Rp.
          * rewrite Ef. exact (Rn eq_refl). }
    destruct Q1 as (q1 & E1 & Q1 & N1 & M1). exists q1. split; [exact Q1|]. split; [exact N1|]. split; [exact M1|].
    rewrite E1. cbn [bind be_docs be_blot]. rewrite Ld.
    destruct (Nat.leb_spec (length (part (room entry) suf)) 1) as [Sm|Bg].
    - pose proof (ql_i _ _ Q1) as Li1.
      destruct (advance_spec q1 h1 i a rs (N.to_nat (q_i q1)) (ql_len _ _ Q1) (ql_n _ _ Q1) (ql_nil _ _ Q1)) as (q2 & E2 & Q2 & M2 & N2); auto; [|lia|].
      { intros t Lt _. apply (ql_st _ _ Q1 t Lt). }
      rewrite E2. cbn [bind]. eexists q2, _. split; [reflexivity|]. split; [exact Q2|]. split; [congruence|]. split; [exact M2|]. apply Fe.
    - eexists. split; [reflexivity|]. cbn [be_blot be_docs]. split; [|exact Kd].
      rewrite (ql_n _ _ Q), Rb. replace (q_i q) with (N.of_nat i) by (unfold i; lia). apply blot_num_eq; [exact Li|apply slot_lt; assumption].
  Qed.

  (** What is still to come: bounded, and less with every round that reads. *)
  Definition phi (v : astate) : nat := match v with None => 0%nat | Some (a, suf) => (wt a * (2 * fuel) + length suf)%nat end.
  Definition Phi (h : nat -> astate) : nat := list_sum (map (fun s => phi (h s)) (seq 0 n)).
  Lemma Phi_set h p v : (p < n)%nat -> (Phi (hset h p v) + phi (h p) = Phi h + phi v)%nat.
  Proof.
    intros L. unfold Phi. pose proof (sum_upd (fun s => phi (hset h p v s)) (fun s => phi (h s)) p n L) as X. cbv beta in X.
    assert (hset h p v p = v) as E by (unfold hset; rewrite Nat.eqb_refl; reflexivity). rewrite E in X. apply X.
    intros s Ns. unfold hset. destruct (Nat.eqb_spec s p); [congruence|reflexivity].
  Qed.
  Lemma phi_after s a p : (p < n)%nat -> (a < num_slots)%nat -> (phi (after s a p) < wt (S a) * (2 * fuel) + fuel)%nat.
  Proof.
    intros Lp La. pose proof (held_fuel p a Lp La) as F0. unfold after. destruct (Nat.eqb_spec (S a) num_slots) as [E|E]; [cbn [phi]; lia|]. destruct (_ <=? 1)%nat; [cbn [phi]; lia|].
    cbn [phi]. assert (S a < num_slots)%nat as Ls by (clear -La E; revert La E; generalize num_slots; intros; lia). pose proof (held_fuel p (S a) Lp Ls). lia.
  Qed.
  Lemma QL_room q h s a suf : QL q h -> (s < n)%nat -> h s = Some (a, suf) -> (a < num_slots)%nat /\ exists pre, held_at s a = pre ++ suf.
  Proof.
    intros Q Ls E. destruct (ql_st _ _ Q s Ls) as (o & _ & R). rewrite E in R. destruct o as [rs|]; [|destruct R]. destruct R as (La & _ & _ & _ & Rp & _). auto.
  Qed.
  (** It reads two documents at least, or goes on. *)
  Lemma gone_less h i a c suf : (i < n)%nat -> (a < num_slots)%nat -> h i = Some (a, suf) ->
    (ended c suf = true -> Phi (gone h i a c suf) + wt (S a) * (2 * fuel) + fuel < Phi h)%nat /\
    (ended c suf = false -> Phi (gone h i a c suf) + length (part c suf) = Phi h)%nat.
  Proof.
    intros Li La Hi. pose proof (Phi_set h i (if ended c suf then after i a i else Some (a, left c suf)) Li) as X. fold (gone h i a c suf) in X. rewrite Hi in X. cbn [phi] in X.
    pose proof (phi_after i a i Li La) as Y. pose proof (wt_S a La) as Ws. pose proof (wt_pos (S a)) as Wp. split; intros E; rewrite E in X.
    - rewrite Ws in X. generalize dependent (Phi (gone h i a c suf)). intros A X. generalize dependent (phi (after i a i)). intros B X LB. nia.
    - cbn [phi] in X. assert (length suf = length (part c suf) + length (left c suf))%nat as Es.
      { unfold part, left, ended in *. destruct c as [c|]; [|discriminate]. rewrite <- (firstn_skipn c suf) at 1. apply app_length. }
      lia.
  Qed.
  Lemma skip_less h i a c suf j : (i < n)%nat -> (j < n)%nat -> (a < num_slots)%nat -> h i = Some (a, suf) ->
    (ended c suf = false -> j = i) ->
    (Phi (hset (gone h i a c suf) j (after i a j)) < Phi h)%nat.
  Proof.
    intros Li Lj La Hi Ne. pose proof (Phi_set (gone h i a c suf) j (after i a j) Lj) as X. pose proof (phi_after i a j Lj La) as Y.
    destruct (gone_less h i a c suf Li La Hi) as [A B]. destruct (ended c suf) eqn:E.
    - specialize (A eq_refl). lia.
    - rewrite (Ne eq_refl) in *. clear A. specialize (B eq_refl).
      assert (G : gone h i a c suf i = Some (a, left c suf)) by (unfold gone, hset; rewrite Nat.eqb_refl, E; reflexivity). rewrite G in X. cbn [phi] in X.
      pose proof (wt_S a La) as Ws. pose proof (wt_pos (S a)) as Wp. rewrite Ws in X.
      assert (length suf = length (part c suf) + length (left c suf))%nat as Es.
      { unfold part, left, ended in *. destruct c as [c|]; [|discriminate]. rewrite <- (firstn_skipn c suf) at 1. apply app_length. }
      nia.
  Qed.
End L.
