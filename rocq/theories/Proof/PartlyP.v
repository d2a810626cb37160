(** Posting files that a session has left in the middle of a write: whatever can be read is
    what was posted. *)
From Verif Require Import Model.Base Model.Address Model.Varint Model.Post Model.Poster Model.Shard Model.Query Model.Index Model.Crash Spec.Postings Spec.Reading Spec.Querying Spec.Damaged Proof.Tactics Proof.VarintP Proof.PosterP Proof.ShardP Proof.QueryP Proof.KeepP Proof.LinkCutP Proof.DamagedP2.
From Coq Require Import Lia.
Local Open Scope N_scope.

(** * Reading *)
(** Whatever Next returns is the next of [ids]; it may end, or fail, at any point. *)
Fixpoint reads_within (f : bytes) (r : posts) (ids : list N) : Prop :=
  match ids with
  | [] => forall d r', posts_next r f <> Ok (d, r')
  | x :: rest => forall d r', posts_next r f = Ok (d, r') -> d = x /\ reads_within f r' rest
  end.
Lemma within_none f r ids : (forall d r', posts_next r f <> Ok (d, r')) -> reads_within f r ids.
Proof. intros H. destruct ids; cbn [reads_within]; [exact H|]. intros d r' E. destruct (H _ _ E). Qed.
Lemma within_reads f ids : forall r more, reads f r ids -> reads_within f r (ids ++ more).
Proof.
  induction ids as [|x ids IH]; intros r more H; cbn [app reads reads_within] in *.
  - apply within_none. intros d r' E. rewrite H in E. discriminate.
  - destruct H as (r' & E & H). intros d r2 E2. rewrite E in E2. assert (d = x) as -> by congruence. assert (r2 = r') as -> by congruence. auto.
Qed.
Lemma within_buffered f rest : forall todo i np cur done,
  i = length done ->
  reads_within f (MkPosts (length (done ++ todo)) np cur (done ++ todo)) rest ->
  reads_within f (MkPosts i np cur (done ++ todo)) (todo ++ rest).
Proof.
  induction todo as [|d t IH]; intros i np cur done -> H.
  - rewrite !app_nil_r in *. exact H.
  - cbn [app reads_within]. unfold posts_next. cbn [r_i r_docids r_nextpos r_current].
    assert ((length done =? length (done ++ d :: t))%nat = false) as ->
      by (rewrite app_length; cbn [length]; lia).
    cbn [bind r_i r_docids]. rewrite nth_error_app2, Nat.sub_diag by lia. cbn [nth_error].
    intros d' r' E. assert (d' = d) as -> by congruence. injection E as <-. split; [reflexivity|].
    replace (done ++ d :: t) with ((done ++ [d]) ++ t) in * by (rewrite <- app_assoc; reflexivity).
    apply IH; [rewrite app_length; cbn [length]; lia|]. exact H.
Qed.

(** * Logs with torn ends *)
(** Like [keeps], with the links of the slots' last chunks given. *)
Fixpoint ends (tl : nat -> bytes) (base : nat) (log : list entry) (f : bytes) : Prop :=
  match log with
  | [] => True
  | (s, ds) :: r => exists lk f', f = chunk_hdr ds ++ payload ds ++ lk ++ f' /\ length lk = 8%nat /\
      (In s (map fst r) -> lk = link_bytes (next_off s (base + chunk_len ds) r)) /\ (~ In s (map fst r) -> lk = tl s) /\
      ends tl (base + chunk_len ds) r f'
  end.
Lemma ends_render log : forall base, ends (fun _ => link_bytes (-1)) base log (render base log).
Proof.
  induction log as [|[s ds] r IH]; intros base; cbn [ends render]; [exact I|].
  eexists _, _. split; [reflexivity|]. split; [apply link_bytes_length|]. split; [auto|]. split; [|apply IH].
  intros H. assert (next_off s (base + chunk_len ds) r = (-1)%Z) as -> by (apply next_off_none; exact H). reflexivity.
Qed.
Lemma ends_past tl log : forall base f off d, ends tl base log f -> (log_size log <= off)%nat -> ends tl base log (pwrite f off d).
Proof.
  induction log as [|[s ds] r IH]; intros base f off d K L; cbn [ends log_size] in *; [exact I|].
  destruct K as (lk & f' & -> & Lk & H1 & H2 & K). exists lk, (pwrite f' (off - chunk_len ds) d).
  split; [|split; [exact Lk|split; [exact H1|split; [exact H2|apply IH; [exact K|lia]]]]].
  apply pwrite_past3. unfold chunk_len in *. lia.
Qed.
Lemma ends_ext tl tl' log : (forall s, In s (map fst log) -> tl s = tl' s) -> forall base f, ends tl base log f -> ends tl' base log f.
Proof.
  induction log as [|[s ds] r IH]; intros X base f K; cbn [ends map fst In] in *; [exact I|].
  destruct K as (lk & f' & E & Lk & H1 & H2 & K). exists lk, f'. split; [exact E|]. split; [exact Lk|]. split; [exact H1|]. split; [|apply IH; [intros; apply X; auto|exact K]].
  intros Hn. rewrite <- X by auto. auto.
Qed.
Definition torn (tl : nat -> bytes) (s : nat) (d : bytes) : nat -> bytes := fun s' => if (s' =? s)%nat then d ++ skipn (length d) (tl s) else tl s'.
Lemma ends_link tl s log : forall base f d, ends tl base log f -> link_pos s base log <> (-1)%Z -> (length d <= 8)%nat ->
  ends (torn tl s d) base log (pwrite f (Z.to_nat (link_pos s base log) - base) d).
Proof.
  induction log as [|[s' ds] r IH]; intros base f d K N0 L; cbn [ends link_pos] in *; [exact I|].
  destruct K as (lk & f' & -> & Lk & H1 & H2 & K). pose proof (chunk_len_ge ds) as G.
  destruct (Z.eqb_spec (link_pos s (base + chunk_len ds) r) (-1)) as [E|E].
  - destruct (Nat.eqb_spec s' s) as [->|Ne]; [|contradiction]. pose proof (proj1 (link_pos_none _ _ _) E) as Nin.
    exists (d ++ skipn (length d) lk), f'.
    split; [|split; [rewrite app_length, skipn_length; lia|split; [intros X; contradiction|split]]].
    + replace (Z.to_nat (Z.of_nat (base + chunk_len ds) - 8) - base)%nat with (length (chunk_hdr ds ++ payload ds) + 0)%nat by (rewrite app_length; unfold chunk_len; lia).
      rewrite app_assoc, pwrite_app_r, pwrite_in by lia. rewrite <- !app_assoc. reflexivity.
    + intros _. unfold torn. rewrite Nat.eqb_refl, (H2 Nin). reflexivity.
    + eapply ends_ext; [|exact K]. intros s2 Hs2. unfold torn. destruct (Nat.eqb_spec s2 s) as [->|]; [contradiction|reflexivity].
  - exists lk, (pwrite f' (Z.to_nat (link_pos s (base + chunk_len ds) r) - (base + chunk_len ds)) d).
    split; [|split; [exact Lk|split; [exact H1|split; [|apply IH; auto]]]].
    + destruct (link_pos_range s r (base + chunk_len ds)) as [|R]; [contradiction|].
      apply pwrite_past3. unfold chunk_len in *. lia.
    + intros Hn. unfold torn. destruct (Nat.eqb_spec s' s) as [->|]; [|auto]. exfalso. apply E. apply link_pos_none. exact Hn.
Qed.
Lemma ends_at tl l1 : forall base s ds l2 f, ends tl base (l1 ++ (s, ds) :: l2) f ->
  exists lk f', skipn (log_size l1) f = chunk_hdr ds ++ payload ds ++ lk ++ f' /\ length lk = 8%nat /\
    (In s (map fst l2) -> lk = link_bytes (next_off s (base + log_size l1 + chunk_len ds) l2)) /\ (~ In s (map fst l2) -> lk = tl s).
Proof.
  induction l1 as [|[s' ds'] r IH]; intros base s ds l2 f K; cbn [app ends log_size] in *.
  - destruct K as (lk & f' & -> & Lk & H1 & H2 & _). exists lk, f'. rewrite Nat.add_0_r. auto.
  - destruct K as (lk & f' & -> & Lk & _ & _ & K). destruct (IH _ _ _ _ _ K) as (lk2 & f2 & E & L2 & H2 & H3).
    exists lk2, f2. split; [|split; [exact L2|split; [|exact H3]]].
    + rewrite skipn_add. replace (chunk_len ds') with (length (chunk_hdr ds' ++ payload ds' ++ lk)) by (rewrite !app_length; unfold chunk_len; lia).
      replace (chunk_hdr ds' ++ payload ds' ++ lk ++ f') with ((chunk_hdr ds' ++ payload ds' ++ lk) ++ f') by (rewrite <- !app_assoc; reflexivity).
      rewrite skipn_app_exact by reflexivity. exact E.
    + rewrite Nat.add_assoc. exact H2.
Qed.

(** A link that ends the list, or leads to where nothing can be read. *)
Definition dead (f : bytes) (lk : bytes) : Prop :=
  i64_of_u64 (be64 lk) = (-1)%Z \/ forall r, r_nextpos r = i64_of_u64 (be64 lk) -> read_next r f = Err EOther.
Definition partly (log : list entry) (f : bytes) : Prop := exists tl, ends tl 0 log f /\ forall s, dead f (tl s).

Lemma within_log log s f : log_ok log -> (Z.of_nat (log_size log) < 9223372036854775808)%Z -> partly log f ->
  forall l2 l1 n cur ids more, log = l1 ++ l2 -> n = length ids ->
  reads_within f (MkPosts n (next_off s (log_size l1) l2) cur ids) (sums cur (concat (chunks s l2)) ++ more).
Proof.
  intros Hok Hsz (tl & K & Dd). induction l2 as [|[s' ds] r IH]; intros l1 n cur ids more Hlog Hn.
  - cbn [chunks filter map concat sums next_off app]. apply within_none. intros d r'. unfold posts_next. cbn [r_i r_docids r_nextpos].
    assert ((n =? length ids)%nat = true) as -> by (apply Nat.eqb_eq; auto). change (-1 =? -1)%Z with true. discriminate.
  - assert (log_size (l1 ++ [(s', ds)]) = (log_size l1 + chunk_len ds)%nat) as Hls
      by (rewrite log_size_app; cbn [log_size]; lia).
    destruct (Nat.eqb_spec s' s) as [->|Hs].
    + assert (chunks s ((s, ds) :: r) = ds :: chunks s r) as ->
        by (unfold chunks; cbn [filter fst]; rewrite Nat.eqb_refl; reflexivity).
      cbn [concat next_off]. rewrite Nat.eqb_refl, sums_app, <- app_assoc.
      assert (Eok : entry_ok (s, ds)) by (rewrite Hlog in Hok; apply Forall_app in Hok; destruct Hok as [_ Hok]; inv Hok; assumption).
      set (lst := last (sums cur ds) cur).
      pose proof K as K1. rewrite Hlog in K1. destruct (ends_at tl l1 0 s ds r f K1) as (lk & f' & Sk & Lk & Hlk & Htl).
      rewrite Nat.add_0_l in Hlk.
      assert (reads_within f (MkPosts 0 (i64_of_u64 (be64 lk)) lst (sums cur ds)) (sums cur ds ++ sums lst (concat (chunks s r)) ++ more)) as H.
      { apply (within_buffered _ _ (sums cur ds) 0 _ _ []); [reflexivity|]. cbn [app].
        destruct (in_dec Nat.eq_dec s (map fst r)) as [Hin|Hout].
        - rewrite (Hlk Hin). unfold link_bytes. rewrite <- (app_nil_r (put_be64 _)), be64_put by apply u64_of_i64_range.
          rewrite i64_u64.
          + rewrite <- Hls. apply IH; [|reflexivity]. rewrite <- app_assoc. exact Hlog.
          + destruct (next_off_range s r (log_size l1 + chunk_len ds)) as [->|R]; [lia|].
            rewrite Hlog, log_size_app in Hsz. cbn [log_size] in Hsz. lia.
        - rewrite (Htl Hout). apply within_none. intros d r'. unfold posts_next. cbn [r_i r_docids r_nextpos]. rewrite Nat.eqb_refl.
          destruct (Dd s) as [->|X]; [change (-1 =? -1)%Z with true; discriminate|]. destruct (_ =? -1)%Z; [discriminate|].
          rewrite X by reflexivity. discriminate. }
      pose proof Eok as (Hne & _). cbn [snd] in Hne.
      destruct ds as [|d0 ds0]; [congruence|]. cbn [sums app] in H |- *. cbn [reads_within] in H |- *.
      intros d r' E. apply H. rewrite <- E. unfold posts_next at 2. cbn [r_i r_docids r_nextpos].
      assert ((n =? length ids)%nat = true) as -> by (apply Nat.eqb_eq; auto).
      destruct (Z.eqb_spec (Z.of_nat (log_size l1)) (-1)); [lia|].
      rewrite (read_next_at f (log_size l1) s (d0 :: ds0) lk f') by (auto; reflexivity).
      cbn [bind r_i r_docids r_current sums]. fold lst.
      unfold posts_next. cbn [r_i r_docids]. cbn [length Nat.eqb bind]. reflexivity.
    + assert (chunks s ((s', ds) :: r) = chunks s r) as ->
        by (unfold chunks; cbn [filter fst]; destruct (Nat.eqb_spec s' s); [congruence|reflexivity]).
      cbn [next_off]. destruct (Nat.eqb_spec s' s); [congruence|].
      rewrite <- Hls. apply IH; [|assumption]. rewrite <- app_assoc. exact Hlog.
Qed.

(** * Torn links and torn chunks *)
Lemma dead_end f : dead f (link_bytes (-1)).
Proof. left. vm_compute. reflexivity. Qed.
Lemma dead_past f lk : (Z.of_nat (length f) <= i64_of_u64 (be64 lk))%Z -> dead f lk.
Proof.
  intros L. right. intros r E. unfold read_next. rewrite E. rewrite <- (Z2Nat.id (i64_of_u64 (be64 lk))) by lia.
  rewrite varint_end by lia. reflexivity.
Qed.
Lemma torn_link v d1 d2 : v < 9223372036854775808 -> put_be64 v = d1 ++ d2 ->
  let lk := d1 ++ skipn (length d1) (link_bytes (-1)) in i64_of_u64 (be64 lk) = (-1)%Z \/ (Z.of_N v <= i64_of_u64 (be64 lk))%Z.
Proof.
  intros Hv E. cbv zeta. pose proof (be64_put v [] ltac:(lia)) as B.
  assert (Fb : Forall is_byte (put_be64 v)) by (unfold put_be64, u8, is_byte; repeat constructor; apply N.mod_lt; lia).
  rewrite be64_big in B by (reflexivity || exact Fb).
  change (link_bytes (-1)) with [255; 255; 255; 255; 255; 255; 255; 255].
  remember (put_be64 v) as l eqn:El. assert (Ll : length l = 8%nat) by (rewrite El; reflexivity). clear El.
  destruct l as [|b0 [|b1 [|b2 [|b3 [|b4 [|b5 [|b6 [|b7 [|]]]]]]]]]; try discriminate. clear Ll.
  repeat match goal with H : Forall is_byte (_ :: _) |- _ => apply Forall_cons_iff in H; let X := fresh "L" in destruct H as [X H]; unfold is_byte in X end.
  destruct d1 as [|c0 d1]; [left; reflexivity|]. right.
  assert (X : forall l, length l = 8%nat -> Forall is_byte l -> be64 l = big_endian l) by (intros l H1 H2; rewrite <- (app_nil_r l) at 1; apply be64_big; assumption).
  assert (Y : forall x, x < 9223372036854775808 -> v <= x -> (Z.of_N v <= i64_of_u64 x)%Z).
  { intros x H1 H2. unfold i64_of_u64. destruct (N.ltb_spec x 9223372036854775808); lia. }
  injection E as <- E. unfold big_endian in B. cbn [fold_left] in B.
  destruct d1 as [|c1 d1]; [|injection E as <- E; destruct d1 as [|c2 d1]; [|injection E as <- E; destruct d1 as [|c3 d1]; [|injection E as <- E;
    destruct d1 as [|c4 d1]; [|injection E as <- E; destruct d1 as [|c5 d1]; [|injection E as <- E; destruct d1 as [|c6 d1]; [|injection E as <- E;
    destruct d1 as [|c7 d1]; [|injection E as <- E; destruct d1 as [|c8 d1]; [|discriminate E]]]]]]]].
  all: cbn [length skipn app]; rewrite X by (reflexivity || (repeat constructor; assumption || (unfold is_byte; lia))); apply Y; unfold big_endian; cbn [fold_left];
    clear - B Hv L L0 L1 L2 L3 L4 L5 L6; lia.
Qed.
(** A chunk of which the end is missing. *)
Lemma varint_torn f p l : Forall (fun c => 128 <= c) l -> forall fuel n buf, skipn (p + n) f = l -> (length l < fuel)%nat ->
  read_varint_at_aux fuel f (Z.of_nat p) (Z.of_nat n) buf = Err EOF.
Proof.
  induction l as [|c l IH]; intros Hl [|fuel] n buf Sk Hf; cbn [length] in Hf; try lia; cbn [read_varint_at_aux]; rewrite <- Nat2Z.inj_add.
  - assert (L : (length f <= p + n)%nat) by (apply (f_equal (@length N)) in Sk; rewrite skipn_length in Sk; cbn [length] in Sk; lia).
    unfold pread, zlen. assert ((Z.of_nat (p + n) <? 0)%Z = false) as -> by lia. change (1 <=? 0)%Z with false. cbn iota.
    assert ((Z.of_nat (p + n) + 1 <=? Z.of_nat (length f))%Z = false) as -> by lia. reflexivity.
  - inv Hl. change 1%Z with (Z.of_nat (length [c])) at 1. rewrite (pread_skipn f (p + n) [c] l) by (cbn [length app]; auto; lia).
    cbn [bind]. assert ((c <? 128) = false) as -> by lia. replace (Z.of_nat n + 1)%Z with (Z.of_nat (S n)) by lia.
    apply IH; [assumption| |lia]. replace (p + S n)%nat with ((p + n) + 1)%nat by lia. rewrite skipn_add, Sk. reflexivity.
Qed.
Lemma chunk_torn f off ds lk t t2 r : skipn off f = t -> chunk_hdr ds ++ payload ds ++ lk = t ++ t2 -> t2 <> [] -> length lk = 8%nat ->
  (length (payload ds) <= 516)%nat -> r_nextpos r = Z.of_nat off -> read_next r f = Err EOther.
Proof.
  intros Sk E N2 Lk Hp Hr. unfold read_next. rewrite Hr.
  assert (Hz : (-9223372036854775808 <= Z.of_nat (length (payload ds) + 8) < 9223372036854775808)%Z) by lia.
  destruct (Nat.le_gt_cases (length (chunk_hdr ds)) (length t)) as [L|L].
  - assert (Et : exists t', t = chunk_hdr ds ++ t' /\ payload ds ++ lk = t' ++ t2).
    { exists (skipn (length (chunk_hdr ds)) t). assert (X : firstn (length (chunk_hdr ds)) t = chunk_hdr ds).
      { assert (Y := f_equal (firstn (length (chunk_hdr ds))) E). rewrite firstn_app_exact in Y by reflexivity. rewrite firstn_app in Y.
        replace (length (chunk_hdr ds) - length t)%nat with 0%nat in Y by lia. cbn [firstn] in Y. rewrite app_nil_r in Y. auto. }
      split; [rewrite <- X at 1; symmetry; apply firstn_skipn|].
      rewrite <- (firstn_skipn (length (chunk_hdr ds)) t), X, <- app_assoc in E. apply app_inv_head in E. exact E. }
    destruct Et as (t' & Et & E'). rewrite Et in Sk.
    rewrite (read_varint_at_spec f off (Z.of_nat (length (payload ds) + 8)) t' Hz Sk). cbn [wrap_err bind]. fold (chunk_hdr ds). unfold reader_buf.
    assert ((Z.of_nat (length (payload ds) + 8) <? 0)%Z || (530 <? Z.of_nat (length (payload ds) + 8))%Z = false) as -> by (apply orb_false_intro; lia).
    assert (Lf : (length f - off = length (chunk_hdr ds) + length t')%nat) by (rewrite <- skipn_length, Sk, app_length; reflexivity).
    assert (Lh : (1 <= length (chunk_hdr ds))%nat) by (unfold chunk_hdr, put_varint; pose proof (put_uvarint_nonempty (zigzag (Z.of_nat (length (payload ds) + 8)))); lia).
    apply (f_equal (@length N)) in E'. rewrite !app_length, Lk in E'. assert (L2 : (1 <= length t2)%nat) by (destruct t2; [contradiction|cbn [length]; lia]).
    unfold pread, zlen. assert ((Z.of_nat off + Z.of_nat (length (chunk_hdr ds)) <? 0)%Z = false) as -> by lia.
    assert ((Z.of_nat (length (payload ds) + 8) <=? 0)%Z = false) as -> by lia.
    assert ((Z.of_nat off + Z.of_nat (length (chunk_hdr ds)) + Z.of_nat (length (payload ds) + 8) <=? Z.of_nat (length f))%Z = false) as -> by lia. reflexivity.
  - set (z := Z.of_nat (length (payload ds) + 8)) in *. destruct (put_uvarint_shape (zigzag z) (zigzag_range z Hz)) as (l & b & Es & Hb & Hl).
    assert (Eh : chunk_hdr ds = l ++ [b]) by (unfold chunk_hdr, put_varint; exact Es).
    pose proof (put_varint_len z) as Ln. unfold put_varint in Ln. rewrite Es, app_length in Ln. cbn [length] in Ln.
    assert (Ft : Forall (fun c => 128 <= c) t).
    { rewrite Eh, app_length in L. cbn [length] in L. assert (X : t = firstn (length t) l).
      { assert (Y := f_equal (firstn (length t)) E). rewrite (firstn_app_exact t t2) in Y by reflexivity. rewrite Eh, <- app_assoc, firstn_app in Y.
        replace (length t - length l)%nat with 0%nat in Y by lia. cbn [firstn] in Y. rewrite app_nil_r in Y. auto. }
      rewrite X. apply Forall_forall. intros c Hc. rewrite Forall_forall in Hl. apply Hl. rewrite <- (firstn_skipn (length t) l). apply in_or_app. left. exact Hc. }
    unfold read_varint_at. change 0%Z with (Z.of_nat 0). rewrite (varint_torn f off t Ft) ; [reflexivity|rewrite Nat.add_0_r; exact Sk|].
    rewrite Eh, app_length in L. cbn [length] in L. unfold max_varint_len64. lia.
Qed.

(** * Flushing *)
Lemma render_partly log : partly log (render 0 log).
Proof. exists (fun _ => link_bytes (-1)). split; [apply ends_render|]. intros s. apply dead_end. Qed.
Lemma cut_nil f f' : wops_cut [] f f' -> f' = f.
Proof. intros C. inversion C. reflexivity. Qed.
Lemma flush_states s L p f pend f' : f = render 0 L -> (Z.of_nat (log_size L) < 9223372036854775808)%Z ->
  p_link p = link_pos s 0 L -> p_head p = next_off s 0 L -> p_posts p = payload pend -> (length (payload pend) <= 516)%nat ->
  wops_cut (snd (flush_to p f)) f f' -> partly L f' \/ f' = apply_wops f (snd (flush_to p f)).
Proof.
  intros Hf Hsz Hl Hh Hp H5 C. destruct (p_posts p) as [|b0 bs] eqn:Ep.
  { unfold flush_to in C |- *. rewrite Ep in *. cbn [snd] in *. right. apply cut_nil, C. }
  assert (Ew : snd (flush_to p f) = (if negb (p_link p =? -1)%Z then [(Z.to_nat (p_link p), put_be64 (u64_of_i64 (Z.of_nat (length f))))] else []) ++
    [(length f, chunk_hdr pend); ((length f + length (chunk_hdr pend))%nat, payload pend ++ link_bytes (-1))]).
  { unfold flush_to. rewrite Ep, Hp. cbn [snd]. unfold chunk_hdr, zlen. rewrite app_length, put_be64_length. reflexivity. }
  rewrite Ew in *. clear Ew. assert (Lf : length f = log_size L) by (rewrite Hf; apply render_length).
  pose proof (ends_render L 0) as E0. rewrite <- Hf in E0.
  (* after the link *)
  assert (After : forall tl g, length g = length f -> ends tl 0 L g -> (forall s', tl s' = link_bytes (-1) \/ tl s' = link_bytes (Z.of_nat (length f))) ->
    wops_cut [(length f, chunk_hdr pend); ((length f + length (chunk_hdr pend))%nat, payload pend ++ link_bytes (-1))] g f' ->
    partly L f' \/ f' = apply_wops g [(length f, chunk_hdr pend); ((length f + length (chunk_hdr pend))%nat, payload pend ++ link_bytes (-1))]).
  { intros tl g Lg Eg Tl Cg. rewrite <- Lg in *.
    assert (Td : forall t t2, chunk_hdr pend ++ payload pend ++ link_bytes (-1) = t ++ t2 -> t2 <> [] -> partly L (g ++ t)).
    { intros t t2 Et Nt. exists tl. split; [rewrite <- pwrite_end; apply ends_past; [exact Eg|lia]|].
      intros s'. destruct (Tl s') as [->| ->]; [apply dead_end|]. right. intros r Hr.
      assert (X : i64_of_u64 (be64 (link_bytes (Z.of_nat (length g)))) = Z.of_nat (length g)).
      { unfold link_bytes. rewrite <- (app_nil_r (put_be64 _)), be64_put by apply u64_of_i64_range. apply i64_u64. lia. }
      rewrite X in Hr. eapply (chunk_torn _ (length g) pend (link_bytes (-1)) t t2); eauto. rewrite skipn_app, skipn_all, Nat.sub_diag. reflexivity. }
    assert (Cons : forall (w : wop) ws a a', wops_cut (w :: ws) a a' -> a' = a \/ (exists d1 d2, snd w = d1 ++ d2 /\ a' = pwrite a (fst w) d1) \/ wops_cut ws (pwrite a (fst w) (snd w)) a').
    { intros w ws a a' Cw. inversion Cw; subst; cbn [fst snd]; eauto 10. }
    destruct (Cons _ _ _ _ Cg) as [->|[(d1 & d2 & Ed & ->)|C2]]; cbn [fst snd] in *.
    - left. rewrite <- (app_nil_r g). eapply (Td []); [reflexivity|]. unfold link_bytes, put_be64. destruct (chunk_hdr pend); [destruct (payload pend)|]; discriminate.
    - left. rewrite pwrite_end. apply (Td d1 (d2 ++ payload pend ++ link_bytes (-1))); [rewrite Ed, <- app_assoc; reflexivity|]. unfold link_bytes, put_be64. destruct d2, (payload pend); discriminate.
    - rewrite pwrite_end in C2. destruct (Cons _ _ _ _ C2) as [->|[(d1 & d2 & Ed & ->)|C3]]; cbn [fst snd] in *.
      + left. eapply (Td (chunk_hdr pend)); [reflexivity|]. unfold link_bytes, put_be64. destruct (payload pend); discriminate.
      + replace (length g + length (chunk_hdr pend))%nat with (length (g ++ chunk_hdr pend)) by apply app_length. rewrite pwrite_end, <- app_assoc.
        destruct d2 as [|x d2]; [right|left; apply (Td (chunk_hdr pend ++ d1) (x :: d2)); [rewrite Ed, app_assoc; reflexivity|discriminate]].
        rewrite app_nil_r in Ed. subst d1. cbn [apply_wops fold_left fst snd]. rewrite pwrite_end.
        replace (length g + length (chunk_hdr pend))%nat with (length (g ++ chunk_hdr pend)) by apply app_length. rewrite pwrite_end, <- app_assoc. reflexivity.
      + right. apply cut_nil in C3. cbn [apply_wops fold_left fst snd]. rewrite pwrite_end. exact C3. }
  destruct (Z.eqb_spec (p_link p) (-1)) as [El|El]; cbn [negb app] in *.
  - destruct (After _ f eq_refl E0) as [X|X]; auto.
  - destruct (link_pos_range s L 0) as [X|Rg]; [rewrite Hl in El; contradiction|]. rewrite Nat.add_0_l in Rg.
    assert (El2 : link_pos s 0 L <> (-1)%Z) by (rewrite <- Hl; exact El).
    assert (Te : forall d1 d2, put_be64 (u64_of_i64 (Z.of_nat (length f))) = d1 ++ d2 -> length (pwrite f (Z.to_nat (p_link p)) d1) = length f /\
      ends (torn (fun _ => link_bytes (-1)) s d1) 0 L (pwrite f (Z.to_nat (p_link p)) d1)).
    { intros d1 d2 Ed. assert (L1 : (length d1 <= 8)%nat) by (apply (f_equal (@length N)) in Ed; rewrite put_be64_length, app_length in Ed; lia).
      split; [apply pwrite_length_in; rewrite Hl; lia|]. pose proof (ends_link _ s L 0 f d1 E0 El2 L1) as Y. rewrite Nat.sub_0_r in Y. rewrite Hl. exact Y. }
    assert (Ev : u64_of_i64 (Z.of_nat (length f)) = N.of_nat (length f)) by (unfold u64_of_i64; rewrite Z.mod_small by lia; lia).
    inversion C as [? ?|off d1 d2 ws f0 E1|off d ws f0 f1 C1 E1]; subst f0.
    + left. subst f'. rewrite Hf. apply render_partly.
    + left. destruct (Te d1 d2 (eq_sym H)) as [L1 E2]. eexists. split; [exact E2|]. intros s'. unfold torn. destruct (s' =? s)%nat; [|apply dead_end].
      rewrite Ev in H. destruct (torn_link (N.of_nat (length f)) d1 d2 ltac:(lia) (eq_sym H)) as [Q|Q]; [left; exact Q|]. apply dead_past. lia.
    + destruct (Te _ [] (eq_sym (app_nil_r _))) as [L1 E2].
      destruct (After _ _ L1 E2) as [X|X]; auto.
      * intros s'. unfold torn. destruct (s' =? s)%nat; [|auto]. right. rewrite put_be64_length. change (skipn 8 (link_bytes (-1))) with (@nil N). rewrite app_nil_r. reflexivity.
Qed.

(** * A shard *)
Lemma serve_cut x log c p f' : shard_inv x log c -> (Z.of_nat (log_size log) < 9223372036854775808)%Z ->
  wops_cut (snd (serve_post_w x p)) (x_file x) f' -> partly log f' \/ f' = x_file (serve_post x p).
Proof.
  intros (I1 & I2 & I3 & I4 & I5) Sz. unfold serve_post, serve_post_w. destruct (nth_error (x_ind x) (N.to_nat (serve_slot p))) as [po|] eqn:E.
  2: { cbn [snd fst]. intros C. right. apply cut_nil, C. }
  destruct (I5 _ _ E) as (H1 & H2 & H3 & H4 & H5 & pend & H6 & H7 & H8 & H9). unfold add_post.
  destruct ((p_current po =? post_docid p) && negb (p_total po =? 0)); [cbn [snd fst x_file]; intros C; right; apply cut_nil, C|].
  set (delta := sub32 (post_docid p) (p_current po)). set (p1 := MkPoster _ _ _ _ _).
  assert (P6 : p_posts p1 = payload (pend ++ [delta])).
  { unfold p1. cbn [p_posts]. rewrite payload_app, H6. f_equal. unfold payload. cbn [map concat]. symmetry. apply app_nil_r. }
  assert (P8 : (length (payload (pend ++ [delta])) <= 516)%nat).
  { rewrite payload_app, app_length. assert (payload [delta] = put_uvarint delta) as -> by (unfold payload; cbn [map concat]; apply app_nil_r).
    pose proof (put_uvarint_len32 delta (sub32_d32 _ _)). lia. }
  destruct (flush_rate <=? length (p_posts p1))%nat; [|cbn [snd fst x_file]; intros C; right; apply cut_nil, C].
  pose proof (flush_states (N.to_nat (serve_slot p)) log p1 (x_file x) (pend ++ [delta]) f' I2 Sz) as X.
  destruct (flush_to p1 (x_file x)) as [p' ws]. cbn [snd fst x_file] in *. intros C. apply X; auto.
Qed.
Lemma serve_post_log x log c p : shard_inv x log c -> nlen (c (ShardP.slot_of p)) < 4294967296 ->
  exists e, shard_inv (serve_post x p) (log ++ e) (add_to c p).
Proof.
  intros I Hn. pose proof I as (I1 & I2 & I3 & I4 & I5).
  unfold serve_post, serve_post_w, serve_slot. rewrite land_ffff. fold (ShardP.slot_of p).
  pose proof (ShardP.slot_of_lt p) as Hs.
  destruct (nth_error (x_ind x) (ShardP.slot_of p)) as [po|] eqn:E.
  2: apply nth_error_None in E; lia.
  destruct (add_post_inv _ log po _ (x_file x) (post_docid p) I2 I3 (I5 _ _ E) (post_docid_d32 p) Hn)
    as (log' & L1 & L2 & L3 & L4).
  destruct (add_post po (post_docid p) (x_file x)) as [po' ws]. cbn [fst snd] in *.
  assert (J : shard_inv (MkShard (upd (ShardP.slot_of p) po' (x_ind x)) (apply_wops (x_file x) ws)) log' (add_to c p)).
  { eapply upd_inv; eauto.
    - unfold add_to. rewrite Nat.eqb_refl. exact L3.
    - intros s' Hne. unfold add_to. destruct (Nat.eqb_spec s' (ShardP.slot_of p)); congruence. }
  destruct L4 as [->|[ds ->]]; [exists []; rewrite app_nil_r; exact J|eauto].
Qed.
Lemma serve_batch_log ps : forall x log hist,
  shard_inv x log (content_of hist) -> bounded (hist ++ ps) ->
  exists e, shard_inv (serve_batch x ps) (log ++ e) (content_of (hist ++ ps)).
Proof.
  induction ps as [|p ps IH]; intros x log hist I B; cbn [serve_batch fold_left].
  - exists []. rewrite !app_nil_r. exact I.
  - destruct (serve_post_log x log _ p I) as [e I1].
    { apply (bounded_app_l hist (p :: ps) B). }
    eapply shard_inv_ext in I1; [|intros s; apply add_to_content].
    replace (hist ++ p :: ps) with ((hist ++ [p]) ++ ps) in * by (rewrite <- app_assoc; reflexivity).
    destruct (IH _ _ _ I1 B) as [e' J]. exists (e ++ e'). rewrite app_assoc. exact J.
Qed.
Lemma wops_cut_app a : forall b f f', wops_cut (a ++ b) f f' -> wops_cut a f f' \/ wops_cut b (apply_wops f a) f'.
Proof.
  induction a as [|[off d] a IH]; intros b f f' C; cbn [app apply_wops fold_left fst snd] in *; [right; exact C|].
  inversion C; subst.
  - left. constructor.
  - left. constructor.
  - match goal with H : wops_cut (a ++ b) _ _ |- _ => apply IH in H; destruct H as [H|H] end; [left; constructor; assumption|right; assumption].
Qed.
Lemma flush_ind_cut n : forall i x log c f', shard_inv x log c -> (forall s, nlen (c s) < 4294967296) -> (i + n <= num_slots)%nat ->
  wops_cut (snd (flush_ind_w n i x)) (x_file x) f' -> exists e x', shard_inv x' (log ++ e) c /\ partly (log ++ e) f'.
Proof.
  induction n as [|n IH]; intros i x log c f' I B Hi; cbn [flush_ind_w].
  - cbn [snd]. intros C. apply cut_nil in C. subst f'. exists [], x. rewrite app_nil_r. split; [exact I|]. destruct I as (_ & -> & _). apply render_partly.
  - pose proof I as (I1 & I2 & I3 & I4 & I5). pose proof (shard_file_size _ _ _ I B) as Sz.
    destruct (nth_error (x_ind x) i) as [po|] eqn:E.
    2: apply nth_error_None in E; lia.
    destruct (I5 _ _ E) as (H1 & H2 & H3 & H4 & H5 & pend & H6 & H7 & H8 & H9).
    pose proof (fun g => flush_states i log po (x_file x) pend g I2 Sz H1 H2 H6 ltac:(lia)) as Fs.
    destruct (flush_inv i log po _ (x_file x) I2 I3 (I5 _ _ E)) as (log1 & L1 & L2 & L3 & L4 & L5).
    destruct (flush_to po (x_file x)) as [po' ws]. cbn [fst snd] in *.
    set (x1 := MkShard _ _).
    assert (shard_inv x1 log1 c) as Ix1 by (eapply upd_inv; eauto; lia).
    assert (Ex : exists e, log1 = log ++ e) by (destruct L5 as [->|[ds ->]]; [exists []; rewrite app_nil_r; reflexivity|eauto]).
    destruct Ex as [e ->]. specialize (IH (S i) x1 (log ++ e) c f' Ix1 B ltac:(lia)).
    destruct (flush_ind_w n (S i) x1) as [x2 ws']. cbn [fst snd] in *. intros C. apply wops_cut_app in C. destruct C as [C|C].
    + destruct (Fs _ C) as [P| ->].
      * exists [], x. rewrite app_nil_r. split; assumption.
      * exists e, x1. split; [exact Ix1|]. rewrite L1. apply render_partly.
    + destruct (IH C) as (e' & x' & J & P). rewrite <- app_assoc in J, P. eauto.
Qed.

(** Files that hold part of what has been posted, the old entries first. *)
Definition holds_part (log : list entry) (hist : list post) (f : bytes) : Prop :=
  exists e x', shard_inv x' (log ++ e) (content_of hist) /\ partly (log ++ e) f.
Lemma squeeze_more a : forall b, exists more, squeeze (b ++ a) = squeeze b ++ more.
Proof.
  induction a as [|v a IH]; intros b; [exists []; rewrite !app_nil_r; reflexivity|].
  destruct (IH (b ++ [v])) as [more E]. rewrite <- app_assoc in E. cbn [app] in E. rewrite E, squeeze_snoc. unfold snoc_new.
  destruct (squeeze b) as [|y l]; [eexists; reflexivity|]. destruct (last (y :: l) 0 =? v); [eauto|]. rewrite <- app_assoc. eauto.
Qed.
Lemma content_more hist more s : exists l, content_of (hist ++ more) s = content_of hist s ++ l.
Proof. unfold content_of. rewrite posted_app. apply squeeze_more. Qed.
Lemma next_off_app s a : forall base b, next_off s base (a ++ b) = if (next_off s base a =? -1)%Z then next_off s (base + log_size a) b else next_off s base a.
Proof.
  induction a as [|[s' ds] a IH]; intros base b; cbn [app next_off log_size].
  - rewrite Nat.add_0_r. reflexivity.
  - destruct (s' =? s)%nat; [destruct (Z.eqb_spec (Z.of_nat base) (-1)); [lia|reflexivity]|]. rewrite IH, Nat.add_assoc. reflexivity.
Qed.
Lemma part_within log hist more f s : holds_part log hist f -> bounded hist -> (s < num_slots)%nat ->
  reads_within f (new_posts (next_off s 0 log)) (content_of (hist ++ more) s).
Proof.
  intros (e & x' & I & P) B Hs. pose proof (shard_file_size _ _ _ I B) as Sz. destruct I as (I1 & I2 & I3 & I4 & I5).
  destruct (Z.eqb_spec (next_off s 0 log) (-1)) as [En|En].
  - rewrite En. apply within_none. intros d r'. unfold posts_next, new_posts. cbn [r_i r_docids r_nextpos length Nat.eqb]. change (-1 =? -1)%Z with true. discriminate.
  - pose proof (next_off_app s log 0 e) as X. destruct (Z.eqb_spec (next_off s 0 log) (-1)); [contradiction|]. rewrite <- X.
    destruct (nth_error (x_ind x') s) as [p|] eqn:E; [|apply nth_error_None in E; lia].
    destruct (I5 _ _ E) as (_ & _ & _ & _ & _ & pend & _ & _ & _ & H9). destruct (content_more hist more s) as [l ->]. rewrite <- H9, sums_app, <- app_assoc.
    apply (within_log (log ++ e) s f I3 Sz P (log ++ e) [] 0%nat 0 []); reflexivity.
Qed.

(** * Queries *)
Section Get.
  Variables (grow : nat -> nat) (ix : index) (place : N -> bytes * N * N).
  Lemma get_loop_within f lim : forall ids fuel ps ds ds', reads_within f ps ids -> (forall d pl, In d ids -> docid2doc ix d = Ok pl -> pl = place d) ->
    docs_wf ds -> get_loop grow ix fuel lim f ps ds = Ok ds' ->
    exists seen rest, ids = seen ++ rest /\ docs_keys ds' = docs_keys ds ++ map place seen.
  Proof.
    induction ids as [|d ids IH]; intros [|fuel] ps ds ds' R Pl W E; cbn [get_loop reads_within] in *; try discriminate.
    - exists [], []. split; [reflexivity|]. cbn [map]. rewrite app_nil_r. destruct (_ && _); [congruence|].
      destruct (posts_next ps f) as [[d r']|[]| |]; try discriminate; [destruct (R d r' eq_refl)|congruence].
    - destruct (lim && (docs_len ds =? docs_cap ds)%nat) eqn:El; [exists [], (d :: ids); split; [reflexivity|]; cbn [map]; rewrite app_nil_r; congruence|].
      destruct (posts_next ps f) as [[d' r']|[]| |] eqn:En; try discriminate; [|exists [], (d :: ids); split; [reflexivity|]; cbn [map]; rewrite app_nil_r; congruence].
      destruct (R d' r' eq_refl) as [-> R']. destruct (docid2doc ix d) as [[[p s] e]| | |] eqn:Ed; cbn [bind] in E; try discriminate.
      destruct (put_doc grow lim ds p s e) as [ds1| | |] eqn:Ep; cbn [bind] in E; try discriminate.
      assert (Q : docs_wf ds1 /\ docs_keys ds1 = docs_keys ds ++ [place d]).
      { rewrite <- (Pl d _ (or_introl eq_refl) Ed). destruct lim.
        - destruct ds as [[n back]|]; [|discriminate Ep]. cbn [docs_wf docs_len docs_cap] in *. unfold put_doc in Ep. destruct (nth_error back n) as [old|] eqn:Eo; [|discriminate Ep].
          assert (ds1 = Some (S n, upd n (MkDoc p s e (d_dat old)) back)) as -> by congruence. assert (Ln : (n < length back)%nat) by (apply nth_error_Some; congruence).
          split; [cbn [docs_wf]; rewrite upd_length; lia|]. unfold docs_keys. cbn [docs_list]. rewrite firstn_upd_S by exact Ln. rewrite map_app. reflexivity.
        - destruct (put_doc_free grow ds p s e W) as (ds2 & E2 & W2 & L2 & _). rewrite E2 in Ep. assert (ds1 = ds2) as -> by congruence.
          split; [exact W2|]. unfold docs_keys. rewrite L2, map_app. reflexivity. }
      destruct Q as [W1 K1]. destruct (IH fuel r' ds1 ds' R' (fun x pl H => Pl x pl (or_intror H)) W1 E) as (seen & rest & -> & K).
      exists (d :: seen), rest. split; [reflexivity|]. rewrite K, K1, <- app_assoc. reflexivity.
  Qed.
End Get.
