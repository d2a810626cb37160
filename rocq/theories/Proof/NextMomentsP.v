(** What Next gives while others write is what Get would give, started at a later read. *)
From Coq Require Import Permutation Lia.
From Verif Require Import Model.Base Model.Address Model.Varint Model.Post Model.Poster Model.Shard Model.Dmd Model.Fnames Model.Config Model.Index Model.Query Model.Session Model.Crash Model.Live Model.Moments Model.NextMoments.
From Verif Require Import Spec.Reading Spec.Querying Spec.InTurn Proof.Tactics Proof.AddressP Proof.QueryP Proof.QueryP2 Proof.LiveP Proof.MomentsP Proof.AgreeP Proof.QueryP3.
Local Open Scope N_scope.

(** * Reads counted from a later one *)
Definition later {A} (s : nat) (x : result (A * nat)) : result (A * nat) :=
  match x with Ok (a, t) => Ok (a, (s + t)%nat) | Err e => Err e | Panic => Panic | Loop => Loop end.
Lemma varint_later f s : forall fuel t p n buf,
  read_varint_during f fuel (s + t) p n buf = later s (read_varint_during (fun i => f (s + i)%nat) fuel t p n buf).
Proof.
  induction fuel as [|k IH]; intros t p n buf; cbn [read_varint_during later]; [reflexivity|].
  destruct (pread (f (s + t)%nat) (p + n) 1) as [b|e| |]; cbn [bind later]; try reflexivity.
  destruct (match b with c :: _ => c <? 128 | [] => false end).
  - destruct (varint (buf ++ b)) as [v m]. destruct (m <=? 0)%Z; cbn [later]; [reflexivity|]. rewrite Nat.add_succ_r. reflexivity.
  - rewrite <- Nat.add_succ_r. apply IH.
Qed.
Lemma read_later f s t p : read_next_during f (s + t) p = later s (read_next_during (fun i => f (s + i)%nat) t p).
Proof.
  unfold read_next_during. rewrite varint_later.
  destruct (read_varint_during _ _ t _ _ _) as [[[v n] t']|[]| |]; cbn [later wrap_err bind]; try reflexivity.
  destruct (_ || _); cbn [later]; [reflexivity|]. destruct (wrap_err (pread _ _ _)) as [buf|e| |]; cbn [bind later]; try reflexivity.
  destruct (decode_chunk _ _ _ _ _ _) as [[[ids cur] rest]|e| |]; cbn [bind later]; try reflexivity. rewrite Nat.add_succ_r. reflexivity.
Qed.
Lemma next_later f s t p : posts_next_during f (s + t) p = later s (posts_next_during (fun i => f (s + i)%nat) t p).
Proof.
  unfold posts_next_during. destruct (r_i p =? length (r_docids p))%nat; cbn [bind].
  - destruct (r_nextpos p =? -1)%Z; cbn [bind later]; [reflexivity|]. rewrite read_later.
    destruct (read_next_during _ t p) as [[p' t']|e| |]; cbn [bind later]; try reflexivity. destruct (nth_error _ _); reflexivity.
  - destruct (nth_error _ _); reflexivity.
Qed.
Lemma varint_time f : forall fuel t p n buf v m t', read_varint_during f fuel t p n buf = Ok (v, m, t') -> (t <= t')%nat.
Proof.
  induction fuel as [|k IH]; intros t p n buf v m t' E; cbn [read_varint_during] in E; [discriminate|].
  destruct (pread (f t) (p + n) 1) as [b|e| |]; cbn [bind] in E; try discriminate.
  destruct (match b with c :: _ => c <? 128 | [] => false end).
  - destruct (varint (buf ++ b)) as [w i]. destruct (i <=? 0)%Z; [discriminate|]. inversion E. lia.
  - apply IH in E. lia.
Qed.
Lemma next_time f t p d p' t' : posts_next_during f t p = Ok (d, p', t') -> (t <= t')%nat.
Proof.
  unfold posts_next_during. destruct (r_i p =? length (r_docids p))%nat; cbn [bind]; [destruct (r_nextpos p =? -1)%Z; [discriminate|]|].
  - unfold read_next_during. destruct (read_varint_during _ _ _ _ _ _) as [[[v n] t1]|[]| |] eqn:Ev; cbn [wrap_err bind]; try discriminate. apply varint_time in Ev.
    destruct (_ || _); cbn [bind]; [discriminate|]. destruct (wrap_err (pread _ _ _)) as [buf| | |]; cbn [bind]; try discriminate.
    destruct (decode_chunk _ _ _ _ _ _) as [[[ids cur] rest]| | |]; cbn [bind]; try discriminate. destruct (nth_error _ _); [|discriminate]. intros E. inversion E. lia.
  - destruct (nth_error _ _); [|discriminate]. intros E. inversion E. lia.
Qed.
Lemma put_len grow lim ds p a b ds' : put_doc grow lim ds p a b = Ok ds' -> docs_len ds' = S (docs_len ds).
Proof.
  unfold put_doc. destruct lim, ds as [[n back]|]; try discriminate.
  - destruct (nth_error back n); [|discriminate]. intros E. inversion E. reflexivity.
  - destruct (n <? length back)%nat; intros E; inversion E; reflexivity.
  - intros E; inversion E; reflexivity.
Qed.
Lemma fill_later grow ix now s j : forall fuel t ps ds ds' ps' eof t',
  fill_loop_during grow ix now fuel (s + t) false j ps ds = Ok (ds', ps', eof, t') ->
  eof = true /\ get_loop_during grow ix (fun i => now (s + i)%nat) fuel t false j ps ds = Ok ds' /\ (s + t + docs_len ds' <= t' + docs_len ds)%nat.
Proof.
  induction fuel as [|k IH]; intros t ps ds ds' ps' eof t' E; cbn [fill_loop_during get_loop_during andb] in *; [discriminate|].
  rewrite next_later in E. change (fun i => posting ix now j (s + i)%nat) with (posting ix (fun i => now (s + i)%nat) j) in E.
  destruct (posts_next_during _ t ps) as [[[did ps1] t1]|[]| |] eqn:Ep; cbn [later] in E; try discriminate.
  - apply next_time in Ep. destruct (docid2doc (live ix (now (s + t1)%nat)) did) as [[[path st] en]| | |]; cbn [bind] in *; try discriminate.
    destruct (put_doc grow false ds path st en) as [ds1| | |] eqn:Eu; cbn [bind] in *; try discriminate. apply put_len in Eu.
    rewrite <- Nat.add_succ_r in E. destruct (IH _ _ _ _ _ _ _ E) as (A & B & C). split; [exact A|]. split; [exact B|]. lia.
  - inversion E. subst. split; [reflexivity|]. split; [reflexivity|lia].
Qed.
Lemma turn_more answer : forall es lo mid hi, in_turn answer lo es mid -> (mid <= hi)%nat -> in_turn answer lo es hi.
Proof.
  induction es as [|e es IH]; intros lo mid hi H L; cbn [in_turn] in *; [lia|]. destruct H as (s & A & B & C). exists s. split; [exact A|]. split; [exact B|]. eapply IH; eassumption.
Qed.
Lemma turn_app answer b : forall a lo mid hi, in_turn answer lo a mid -> in_turn answer mid b hi -> in_turn answer lo (a ++ b) hi.
Proof.
  assert (X : forall lo mid hi, (lo <= mid)%nat -> in_turn answer mid b hi -> in_turn answer lo b hi).
  { destruct b as [|e b]; intros lo mid hi L H; cbn [in_turn] in *; [lia|]. destruct H as (s & A & B). exists s. split; [lia|exact B]. }
  induction a as [|e a IH]; intros lo mid hi H Hb; cbn [in_turn app] in *; [eapply X; eassumption|].
  destruct H as (s & A & B & C). exists s. split; [exact A|]. split; [exact B|]. eapply IH; eassumption.
Qed.
Lemma turn_all answer : forall es lo hi, in_turn answer lo es hi -> Forall (fun e => exists s, answer s e) es.
Proof. induction es as [|e es IH]; intros lo hi H; constructor; destruct H as (s & _ & B & C); [eauto|]. eapply IH, C. Qed.

(** * The entries *)
Section A.
  Variable grow : nat -> nat.
  Variables (ix : index) (n : nat) (fuel : nat).
  Variable now : nat -> files.
  Hypothesis Ln : length (ix_shards ix) = n.
  Hypothesis Pn : (0 < n)%nat.
  Hypothesis Mx : N.of_nat n < 65536.
  Hypothesis Pm : forall si, In si (ix_shards ix) -> perm_ok (si_counts si) (si_perm si).

  Definition told_during (s : nat) (e : blot_entry) : Prop :=
    be_blot e < N.of_nat n * 65536 /\ (2 <= docs_len (be_docs e))%nat /\
    query_get_during grow ix (fun i => now (s + i)%nat) fuel (be_blot e) None = Ok (be_docs e).
  Notation BI := (BI ix n).

  Lemma get_from now' p si b : nth_error (ix_shards ix) p = Some si -> (b < num_slots)%nat ->
    query_get_during grow ix now' fuel (num n p b) None = get_loop_during grow ix now' fuel 0 false p (new_posts (nth b (si_heads si) (-1)%Z)) None.
  Proof.
    intros E Lb. unfold query_get_during, get_address. rewrite (n_u32 grow ix n fuel Ln Pn Mx). destruct (N.eqb_spec (N.of_nat n) 0); [lia|]. cbn [bind].
    assert (Lp : (p < n)%nat) by (rewrite <- Ln; apply nth_error_Some; congruence).
    destruct (num_back grow ix n Ln Pn Mx p b Lp Lb) as (A & B & _). unfold u16. rewrite A, E, B. reflexivity.
  Qed.
  Lemma iter_during lo r t r' v t' : BI (r_q r) -> inside (r_n r) (r_dst r) -> in_turn told_during lo (firstn (r_n r) (r_dst r)) t -> next_iter_during grow ix now fuel t r = Ok (r', v, t') ->
    BI (r_q r') /\ inside (r_n r') (r_dst r') /\ in_turn told_during lo (firstn (r_n r') (r_dst r')) t'.
  Proof.
    intros (Hn & Hi & Hs) In_ To E. unfold next_iter_during in E. set (q := r_q r) in *.
    destruct (nth_error (r_dst r) (r_n r)) as [entry|] eqn:Ee; [|inversion E; subst; split; [split; [exact Hn|split; assumption]|split; assumption]].
    assert (Ld : (r_n r < length (r_dst r))%nat) by (apply nth_error_Some; congruence).
    pose proof (In_ _ _ (le_n _) Ee) as De. set (p := N.to_nat (q_i q)) in *. assert (Lp : (p < n)%nat) by (unfold p; lia).
    destruct Hs as [Ls Hs]. destruct (nth_error (q_states q) p) as [[rs|]|] eqn:Ep; [| |discriminate].
    - destruct (Hs p rs Ep) as (si & a & Esi & La & ->).
      unfold fill_blot_during in E. rewrite Esi, De in E. cbn [is_nil negb] in E. rewrite Hn in E.
      destruct (fill_loop_during _ _ _ _ _ _ _ _ _) as [[[[ds ps] eof] t1]| | |] eqn:Ef; cbn [bind] in E; try discriminate.
      rewrite <- (Nat.add_0_r t) in Ef. apply fill_later in Ef. destruct Ef as (-> & G & Lt). rewrite Nat.add_0_r in Lt. cbn [docs_len] in Lt. rewrite Nat.add_0_r in Lt.
      match type of E with context [advance ix ?q0 ?r0 p] => destruct (advance ix q0 r0 p) as [q1| | |] eqn:Ad1 end; cbn [bind] in E; try discriminate.
      cbn [be_docs be_blot] in E.
      assert (Lb : (nth a (si_perm si) 0 < num_slots)%nat) by (exact (perm_lt grow ix n Ln Pn Mx Pm p si a Esi La)).
      assert (Nu : fill_blot_id (N.of_nat n) (q_i q) (u32 (N.of_nat (rs_blot (read_state_at si a)))) = num n p (nth a (si_perm si) 0%nat)).
      { rewrite <- (fill_number grow ix n Ln Pn Mx) by assumption. unfold p. rewrite N2Nat.id. reflexivity. }
      rewrite Nu in E.
      assert (B1 : BI q1).
      { apply (advance_BI grow ix n fuel Ln Pn Mx Pm _ p _ q1) in Ad1; cbn [q_n q_states rs_at] in *; [exact Ad1|reflexivity|rewrite upd_length; exact Ls|exact Lp|exact La|].
        intros s r0 Ns Er. rewrite nth_error_upd_ne in Er by congruence. exact (Hs s r0 Er). }
      destruct (Nat.leb_spec (docs_len ds) 1) as [Lx|Lx].
      + match type of E with context [advance ix q1 ?r0 ?p0] => destruct (advance ix q1 r0 p0) as [q2| | |] eqn:Ad2 end; cbn [bind] in E; try discriminate.
        inversion E. subst r' v. cbn [r_q r_dst r_n]. destruct B1 as (Bn & Bi & Bs & Bt). split; [|split].
        * apply (advance_BI grow ix n fuel Ln Pn Mx Pm _ _ _ q2) in Ad2; [exact Ad2|exact Bn|exact Bs|lia|exact La|intros s r0 _ Er; exact (Bt s r0 Er)].
        * apply (inside_upd grow ix n Ln Pn Mx); [exact In_|reflexivity].
        * rewrite firstn_upd_le by lia. eapply turn_more; [exact To|]. assert (t1 = t') by congruence. lia.
      + inversion E. subst r' v. cbn [r_q r_dst r_n]. split; [exact B1|]. split; [apply (inside_upd_S grow ix n Ln Pn Mx), In_|].
        rewrite firstn_upd_S by exact Ld. eapply turn_app; [exact To|]. assert (t1 = t') as <- by congruence. cbn [in_turn be_docs]. exists t. split; [lia|]. split; [|lia]. unfold told_during. cbn [be_blot be_docs].
        split; [apply (num_back grow ix n Ln Pn Mx); assumption|]. split; [lia|]. rewrite (get_from _ p si) by assumption. exact G.
    - assert (Hs' : states_ok ix n (q_states q)) by (split; assumption).
      destruct (N.eqb_spec (u32 (q_nil q + 1)) (q_n q)) as [En|En]; inversion E; subst r' v t'; cbn [r_q r_dst r_n]; split; try (split; assumption).
      + split; [exact Hn|]. split; [exact Hi|exact Hs'].
      + split; [exact Hn|]. split; [|exact Hs']. cbn [q_i q_n]. rewrite Hn. unfold u32.
        rewrite (N.mod_small (q_i q + 1)) by lia. destruct (N.eqb_spec (q_i q + 1) (N.of_nat n)); lia.
  Qed.
  Lemma loop_during lo : forall k t r r' eof t', BI (r_q r) -> inside (r_n r) (r_dst r) -> in_turn told_during lo (firstn (r_n r) (r_dst r)) t ->
    next_loop_during grow ix now fuel k t r = Ok (r', eof, t') -> BI (r_q r') /\ in_turn told_during lo (firstn (r_n r') (r_dst r')) t'.
  Proof.
    induction k as [|k IH]; intros t r r' eof t' B In_ To E; cbn [next_loop_during] in E; [discriminate|].
    destruct (next_iter_during grow ix now fuel t r) as [[[r1 v] t1]| | |] eqn:Ei; cbn [bind] in E; try discriminate.
    destruct (iter_during lo r t r1 v t1 B In_ To Ei) as (B1 & I1 & T1). destruct v; [exact (IH _ _ _ _ _ B1 I1 T1 E)| |]; inversion E; subst; split; assumption.
  Qed.
  Theorem queried_told_during q t out : queried_during grow ix now fuel unlimited q t out -> BI q /\ in_turn told_during 0 out t.
  Proof.
    induction 1 as [|q t out dst k r eof t' Q [B T] U E]; [split; [exact (start_BI grow ix n fuel Ln Pn Mx Pm)|apply le_n]|].
    destruct (loop_during t k t (MkRun q dst 0) _ _ _ B (unlimited_inside _ U) ltac:(apply le_n) E) as [B1 T1]. split; [exact B1|]. eapply turn_app; eassumption.
  Qed.
End A.

(** * All reads at one moment *)
Definition untimed {A} (x : result (A * nat)) : result A :=
  match x with Ok (a, _) => Ok a | Err e => Err e | Panic => Panic | Loop => Loop end.
Section Once.
  Variable grow : nat -> nat.
  Variables (ix : index) (fs : files) (fuel : nat).
  Let one : nat -> files := fun _ => fs.
  Lemma live_same xs : forall files j, match nth_error xs j, nth_error (live_shards xs files) j with
    | Some s, Some s' => si_heads s' = si_heads s /\ si_counts s' = si_counts s /\ si_perm s' = si_perm s
    | None, None => True | _, _ => False end.
  Proof.
    induction xs as [|x xs IH]; intros [|[a [pos|]] files] [|j]; cbn [nth_error live_shards]; auto; try apply IH; destruct (nth_error xs j); auto.
  Qed.
  Lemma advance_once q rs p : advance (live ix fs) q rs p = advance ix q rs p.
  Proof.
    unfold advance. change (ix_shards (live ix fs)) with (live_shards (ix_shards ix) (w_shards fs)). pose proof (live_same (ix_shards ix) (w_shards fs) p) as X.
    destruct (nth_error (ix_shards ix) p) as [s|]; destruct (nth_error (live_shards _ _) p) as [s'|]; try contradiction; [|reflexivity].
    destruct X as (A & B & C). assert (read_state_at s' (rs_at rs + 1) = read_state_at s (rs_at rs + 1)) as -> by (unfold read_state_at, read_state_for_blot_at; rewrite A, B, C; reflexivity).
    reflexivity.
  Qed.
  Lemma start_once : start_query (live ix fs) = start_query ix.
  Proof.
    unfold start_query. change (ix_shards (live ix fs)) with (live_shards (ix_shards ix) (w_shards fs)). unfold nlen. rewrite live_length. f_equal. f_equal.
    generalize (w_shards fs). generalize (ix_shards ix). induction l as [|x xs IH]; intros [|[a [pos|]] files]; cbn [live_shards map]; try reflexivity; rewrite IH; reflexivity.
  Qed.
  Lemma fill_once lim j s : nth_error (live_shards (ix_shards ix) (w_shards fs)) j = Some s ->
    forall k t ps ds, untimed (fill_loop_during grow ix one k t lim j ps ds) = fill_loop grow (live ix fs) k lim (si_file s) ps ds.
  Proof.
    intros E. assert (Ep : posting ix one j = fun _ => si_file s).
    { unfold posting, one. change (ix_shards (live ix fs)) with (live_shards (ix_shards ix) (w_shards fs)). rewrite E. reflexivity. }
    induction k as [|k IH]; intros t ps ds; cbn [fill_loop fill_loop_during]; [reflexivity|].
    destruct (lim && _); [reflexivity|]. rewrite Ep. pose proof (next_once (si_file s) t ps) as X.
    destruct (posts_next ps (si_file s)) as [[d p']|e| |].
    - destruct X as [t' ->]. unfold one at 1. destruct (docid2doc (live ix fs) d) as [[[q a] b]|e| |]; cbn [bind untimed]; auto.
      destruct (put_doc grow lim ds q a b); cbn [bind untimed]; auto.
    - rewrite X. destruct e; reflexivity.
    - rewrite X. reflexivity.
    - rewrite X. reflexivity.
  Qed.
  Lemma blot_once t q dst src p : untimed (fill_blot_during grow ix one fuel t q dst src p) = fill_blot grow (live ix fs) fuel q dst src p.
  Proof.
    unfold fill_blot_during, fill_blot. change (ix_shards (live ix fs)) with (live_shards (ix_shards ix) (w_shards fs)). pose proof (live_same (ix_shards ix) (w_shards fs) p) as X.
    destruct (nth_error (ix_shards ix) p) as [s|]; destruct (nth_error (live_shards _ _) p) as [s'|] eqn:E; try contradiction; [|reflexivity].
    rewrite <- (fill_once _ p s' E fuel t). destruct (fill_loop_during _ _ _ _ _ _ _ _ _) as [[[[ds ps] eof] t1]| | |]; cbn [untimed bind]; try reflexivity.
    destruct eof; cbn [bind untimed]; [|reflexivity]. rewrite advance_once. destruct (advance ix _ _ _); reflexivity.
  Qed.
  Lemma iter_once t r : untimed (next_iter_during grow ix one fuel t r) = next_iter grow (live ix fs) fuel r.
  Proof.
    unfold next_iter_during, next_iter. destruct (nth_error (r_dst r) (r_n r)) as [e|]; [|reflexivity].
    destruct (nth_error (q_states (r_q r)) _) as [[rs|]|]; [| |reflexivity].
    - rewrite <- (blot_once t). destruct (fill_blot_during _ _ _ _ _ _ _ _ _) as [[[e' q'] t']| | |]; cbn [untimed bind]; try reflexivity.
      destruct (docs_len (be_docs e') <=? 1)%nat; [|reflexivity]. rewrite advance_once. destruct (advance ix _ _ _); reflexivity.
    - destruct (_ =? _); reflexivity.
  Qed.
  Theorem once_next k : forall t q dst, untimed (query_next_during grow ix one fuel k t q dst) = query_next grow (live ix fs) fuel k q dst.
  Proof.
    intros t q dst. unfold query_next_during, query_next. generalize (MkRun q dst 0). revert t.
    induction k as [|k IH]; intros t r; cbn [next_loop_during next_loop]; [reflexivity|].
    rewrite <- (iter_once t). destruct (next_iter_during _ _ _ _ _ _) as [[[r1 v] t1]| | |]; cbn [untimed bind]; try reflexivity. destruct v; try reflexivity. apply IH.
  Qed.
End Once.

(** * A first entry *)
Lemma get_is_fill grow ix f : forall fuel ps ds ds', get_loop grow ix fuel false f ps ds = Ok ds' -> exists ps', fill_loop grow ix fuel false f ps ds = Ok (ds', ps', true).
Proof.
  induction fuel as [|k IH]; intros ps ds ds' E; cbn [fill_loop get_loop andb] in *; [discriminate|].
  destruct (posts_next ps f) as [[did ps1]|[]| |] eqn:Ep; try discriminate.
  - destruct (docid2doc ix did) as [[[path st] en]| | |]; cbn [bind] in *; try discriminate.
    destruct (put_doc grow false ds path st en) as [ds1| | |]; cbn [bind] in *; try discriminate. eapply IH, E.
  - inversion E. subst. eauto.
Qed.
(** Two shards that were opened with one blot each, of three documents and of two: the first
    entry of Next is the blot of the first, with what Get gives for it now. *)
Lemma first_entry grow ix place content fuel fs b0 b1 ds : index_ok ix 2 content place -> (b0 < num_slots)%nat -> (b1 < num_slots)%nat ->
  length (content 0%nat b0) = 3%nat -> length (content 1%nat b1) = 2%nat ->
  (forall b, (b < num_slots)%nat -> b <> b0 -> content 0%nat b = []) -> (forall b, (b < num_slots)%nat -> b <> b1 -> content 1%nat b = []) ->
  query_get grow (live ix fs) fuel (num 2 0 b0) None = Ok ds -> (2 <= docs_len ds)%nat ->
  exists r t, query_next_during grow ix (fun _ => fs) fuel 2 0 (start_query ix) [MkEntry 0 None] = Ok (r, false, t) /\
    firstn (r_n r) (r_dst r) = [MkEntry (num 2 0 b0) ds].
Proof.
  intros I L0 L1 C0 C1 Z0 Z1 G L2.
  enough (X : exists r, query_next grow (live ix fs) fuel 2 (start_query ix) [MkEntry 0 None] = Ok (r, false) /\ firstn (r_n r) (r_dst r) = [MkEntry (num 2 0 b0) ds]).
  { destruct X as (r & E & Er). rewrite <- (once_next grow ix fs fuel 2 0) in E.
    destruct (query_next_during _ _ _ _ _ _ _ _) as [[[r' eof] t]| | |]; cbn [untimed] in E; try discriminate. injection E as -> ->. eauto. }
  destruct (QueryP3.shards2 ix place content I) as (s0 & s1 & Es).
  pose proof (io_perm _ _ _ _ I 0%nat s0) as P0. pose proof (io_perm _ _ _ _ I 1%nat s1) as P1.
  pose proof (io_reads _ _ _ _ I 0%nat s0) as R0. pose proof (io_reads _ _ _ _ I 1%nat s1) as R1. rewrite Es in P0, P1, R0, R1.
  specialize (P0 eq_refl). specialize (P1 eq_refl). specialize (R0 eq_refl). specialize (R1 eq_refl).
  assert (T0 : nth 0 (si_perm s0) 0%nat = b0).
  { apply (QueryP3.perm_top _ _ b0 P0 L0).
    - destruct (R0 b0 L0) as [_ ->]. unfold nlen. rewrite C0. reflexivity.
    - intros b' Lb Nb. destruct (R0 b' Lb) as [_ ->]. rewrite Z0 by assumption. reflexivity. }
  assert (T1 : nth 0 (si_perm s1) 0%nat = b1).
  { apply (QueryP3.perm_top _ _ b1 P1 L1).
    - destruct (R1 b1 L1) as [_ ->]. unfold nlen. rewrite C1. reflexivity.
    - intros b' Lb Nb. destruct (R1 b' Lb) as [_ ->]. rewrite Z1 by assumption. reflexivity. }
  set (ra := read_state_at s0 0). set (rb := read_state_at s1 0).
  assert (Ea : ra = MkReadState b0 0 3 (new_posts (nth b0 (si_heads s0) (-1)%Z))).
  { unfold ra, read_state_at, read_state_for_blot_at. rewrite T0. destruct (R0 b0 L0) as [_ ->]. unfold nlen. rewrite C0. reflexivity. }
  assert (Eb : rs_total rb = 2).
  { unfold rb, read_state_at, read_state_for_blot_at. rewrite T1. cbn [rs_total]. destruct (R1 b1 L1) as [_ ->]. unfold nlen. rewrite C1. reflexivity. }
  assert (St : start_query ix = MkQ [Some ra; Some rb] 0 2 0).
  { unfold start_query, set_max. rewrite Es. cbn [map q_states q_n q_nil set_max_loop]. fold ra rb. rewrite Ea, Eb. reflexivity. }
  pose proof (live_same (ix_shards ix) (w_shards fs) 0) as X. rewrite Es in X. change (nth_error [s0; s1] 0) with (Some s0) in X. cbn iota in X.
  rewrite <- Es in X. change (live_shards (ix_shards ix) (w_shards fs)) with (ix_shards (live ix fs)) in X.
  destruct (nth_error (ix_shards (live ix fs)) 0) as [s'|] eqn:E'; [|contradiction]. destruct X as (Xh & Xc & Xp).
  assert (Ll : length (ix_shards (live ix fs)) = 2%nat) by (cbn [live ix_shards]; rewrite live_length, Es; reflexivity).
  assert (Gl : get_loop grow (live ix fs) fuel false (si_file s') (new_posts (nth b0 (si_heads s0) (-1)%Z)) None = Ok ds).
  { unfold query_get, get_address in G. unfold nlen in G. rewrite Ll in G. change (u32 (N.of_nat 2)) with 2 in G. change (2 =? 0) with false in G. cbn [bind] in G.
    destruct (num_back grow (live ix fs) 2 Ll ltac:(lia) ltac:(reflexivity) 0 b0 ltac:(lia) L0) as (A & B & _). change (N.of_nat 2) with 2 in A, B.
    unfold u16 in G. rewrite A, E', B in G. unfold read_state_for, read_state_for_blot_at in G. cbn [rs_posts is_nil negb] in G. rewrite Xh in G. exact G. }
  destruct (get_is_fill _ _ _ _ _ _ _ Gl) as [ps Ef].
  assert (Ad : forall q rs, rs_at rs = 0%nat -> rs_total rs = 3 -> exists q', advance (live ix fs) q rs 0 = Ok q').
  { intros q rs A B. unfold advance. rewrite A, B, E'. eexists. reflexivity. }
  assert (A1 : exists q', next_iter grow (live ix fs) fuel (MkRun (start_query ix) [MkEntry 0 None] 0) = Ok (MkRun q' [MkEntry (num 2 0 b0) ds] 1, Again)).
  { rewrite St. unfold next_iter. cbn [r_q r_dst r_n q_states q_i q_n]. change (N.to_nat 0) with 0%nat.
    change (nth_error [MkEntry 0 None] 0) with (Some (MkEntry 0 None)). change (nth_error [Some ra; Some rb] 0) with (Some (Some ra)). cbn iota.
    unfold fill_blot. rewrite E'. rewrite Ea. cbn [rs_posts rs_blot rs_at rs_total be_docs is_nil negb]. rewrite Ef. cbn [bind].
    match goal with |- context [advance (live ix fs) ?q0 ?r0 0] => destruct (Ad q0 r0 eq_refl eq_refl) as [q' ->] end. cbn [bind be_docs].
    destruct (Nat.leb_spec (docs_len ds) 1) as [Lx|_]; [lia|]. exists q'. cbn [upd q_i q_n].
    rewrite (fill_number grow (live ix fs) 2 Ll ltac:(lia) ltac:(reflexivity) 0 b0 ltac:(lia) L0 : fill_blot_id 2 0 (u32 (N.of_nat b0)) = _). reflexivity. }
  destruct A1 as [q' A1]. eexists. split.
  - unfold query_next. cbn [next_loop]. rewrite A1. cbn [bind]. unfold next_iter. cbn [r_dst r_n]. change (nth_error [MkEntry (num 2 0 b0) ds] 1) with (@None blot_entry). cbn [bind]. reflexivity.
  - reflexivity.
Qed.
