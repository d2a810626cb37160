(** Consequences for whole documents: C20, C21, C40-C42. *)
From Verif Require Import Model.Base Model.Utf8 Model.Token Model.Blotter Model.Post Model.Address Model.Shatter Model.Config Model.Index.
From Verif Require Import Spec.Text Spec.Fingerprint Spec.Configs.
From Verif Require Import Proof.Tactics Proof.Utf8P Proof.TokenP Proof.BlotterP Proof.ShatterP Proof.VarintP Proof.AddressP Proof.IndexP.
Local Open Scope N_scope.

Lemma spans_lower R : forall pos i a, nth_error (spans pos R) i = Some a -> (pos <= fst a <= snd a)%nat.
Proof.
  induction R as [|[b run] R IH]; intros pos i a E; cbn [spans] in E.
  - destruct i; discriminate.
  - destruct b.
    + destruct i as [|i]; cbn [nth_error] in E.
      * inv E. cbn [fst snd]. lia.
      * apply IH in E. lia.
    + apply IH in E. lia.
Qed.
Lemma spans_mono R : forall pos i j a b, (i <= j)%nat -> nth_error (spans pos R) i = Some a ->
  nth_error (spans pos R) j = Some b -> (fst a <= snd b)%nat.
Proof.
  induction R as [|[c run] R IH]; intros pos i j a b L Ea Eb; cbn [spans] in *.
  - destruct i; discriminate.
  - destruct c; [|eauto]. destruct i as [|i], j as [|j]; cbn [nth_error] in *; try lia.
    + inv Ea. inv Eb. cbn [fst snd]. lia.
    + inv Ea. apply spans_lower in Eb. cbn [fst] in *. lia.
    + eapply IH; [|exact Ea|exact Eb]. lia.
Qed.
Lemma doc_spans_mono u d sp i j a b : doc_spans (word_char u) d sp -> (i <= j)%nat ->
  nth_error sp i = Some a -> nth_error sp j = Some b -> (fst a <= snd b)%nat.
Proof.
  intros [(rs & T & ->)|(_ & ->)] L; [apply spans_mono; exact L|]. intros E. destruct i; discriminate.
Qed.
Lemma Forall2_in_r {A B} (P : A -> B -> Prop) l1 l2 i b : Forall2 P l1 l2 -> nth_error l2 i = Some b ->
  exists a, nth_error l1 i = Some a /\ P a b.
Proof.
  intros F. revert i. induction F as [|x y l1 l2 Pxy F IH]; intros [|i] E; cbn [nth_error] in *; try discriminate.
  - inv E. eauto.
  - eauto.
Qed.

(** Hashes fit in 32 bits. *)
Lemma utf8_bytes r : scalar r -> Forall (fun c => c < 256) (utf8 r).
Proof.
  intros S. unfold scalar in S. unfold utf8.
  destruct (N.ltb_spec r 128); [repeat constructor; lia|].
  destruct (N.ltb_spec r 2048); [repeat constructor; lia|].
  destruct (N.ltb_spec r 65536); [repeat constructor; lia|].
  repeat constructor; lia.
Qed.
Lemma utf8s_bytes rs : Forall scalar rs -> Forall (fun c => c < 256) (utf8s rs).
Proof.
  intros F. induction F as [|r rs S F IH]; [constructor|]. rewrite utf8s_cons. apply Forall_app.
  split; [apply utf8_bytes, S|exact IH].
Qed.
Lemma Forall_firstn {A} (P : A -> Prop) n l : Forall P l -> Forall P (firstn n l).
Proof. intros F. rewrite <- (firstn_skipn n l) in F. apply Forall_app in F. apply F. Qed.
Lemma Forall_skipn {A} (P : A -> Prop) n l : Forall P l -> Forall P (skipn n l).
Proof. intros F. rewrite <- (firstn_skipn n l) in F. apply Forall_app in F. apply F. Qed.
Lemma doc_words_bytes u d ws : doc_words (word_char u) d ws -> Forall (Forall (fun c => c < 256)) ws.
Proof.
  intros D. destruct (doc_spans_total u d) as [sp S]. pose proof (doc_span_words u d ws sp D S) as F.
  destruct D as [(rs & (Sc & E) & _)|(_ & ->)]; [|constructor].
  assert (B : Forall (fun c => c < 256) d) by (rewrite E; apply utf8s_bytes, Sc).
  clear -F B. induction F as [|w s ws sp [Hw _] F IH]; constructor; [|exact IH].
  subst w. unfold sub. apply Forall_firstn, Forall_skipn, B.
Qed.
Lemma spec_blots_bound u k m ws : Forall (Forall (fun c => c < 256)) ws ->
  Forall (fun b => b < 4294967296) (spec_blots (word_hash u) k m ws).
Proof.
  intros F. unfold spec_blots. apply Forall_forall. intros b Hb. apply in_map_iff in Hb.
  destruct Hb as (i & <- & _). apply blot_of_bound. apply Forall_firstn.
  eapply Forall_impl; [|exact F]. intros w. apply word_hash_bound.
Qed.

(** spec_blots and carries *)
Lemma spec_blots_carries H k m n ws q :
  (exists b, In b (spec_blots H k m ws) /\ b mod (N.of_nat n * 65536) = q) <-> exists i, carries H k m n ws q i.
Proof.
  unfold spec_blots, carries. split.
  - intros (b & Hb & E). apply in_map_iff in Hb. destruct Hb as (i & <- & Hi). apply in_seq in Hi.
    exists i. split; [lia|exact E].
  - intros (i & Hi & E). eexists. split; [|exact E]. apply in_map_iff. exists i. split; [reflexivity|]. apply in_seq. lia.
Qed.

(** Where a document is filed. *)
Lemma in_batches n did bs s p : In p (nth s (batches n did bs) []) <->
  (s < n)%nat /\ exists b, In b bs /\ b mod N.of_nat n = N.of_nat s /\ p = post_make did (b / N.of_nat n).
Proof.
  destruct (Nat.lt_ge_cases s n) as [L|L].
  - rewrite (nth_error_nth (batches n did bs) s []  (batches_nth n did bs s L)).
    unfold shard_part. rewrite map_map, in_map_iff. split.
    + intros (b & <- & Hb). apply filter_In in Hb. destruct Hb as [Hb E]. apply N.eqb_eq in E. eauto 6.
    + intros (_ & b & Hb & E & ->). exists b. split; [reflexivity|]. apply filter_In. split; [exact Hb|]. apply N.eqb_eq, E.
  - rewrite nth_overflow by (rewrite batches_length; exact L). split; [intros []|]. intros [? _]. lia.
Qed.
Lemma post_make_docid did b : did < 4294967296 -> b < 4294967296 -> post_docid (post_make did b) = did.
Proof.
  intros Hd Hb. destruct (writer_reader_agree 1 did b) as (sh & p & E & _ & _ & _ & P); try lia.
  unfold shatter_blot in E. destruct (N.eqb_spec 1 0); [lia|]. rewrite N.div_1_r in E.
  assert (p = post_make did b) as -> by congruence. exact P.
Qed.
Lemma post_make_slot did b : did < 4294967296 -> b < 4294967296 -> serve_slot (post_make did b) = b mod 65536.
Proof.
  intros Hd Hb. destruct (writer_reader_agree 1 did b) as (sh & p & E & G & _ & _ & P); try lia.
  unfold shatter_blot, get_address in *. destruct (N.eqb_spec 1 0); [lia|]. rewrite N.div_1_r in *.
  assert (p = post_make did b) as -> by congruence.
  assert (u16 b = serve_slot (post_make did b)) as <- by congruence. reflexivity.
Qed.
Lemma filed_under n did bs q : (0 < n)%nat -> did < 4294967296 -> Forall (fun b => b < 4294967296) bs ->
  (exists b, In b bs /\ b mod (N.of_nat n * 65536) = q) <->
  q < N.of_nat n * 65536 /\
  exists p, In p (nth (N.to_nat (q mod N.of_nat n)) (batches n did bs) []) /\ serve_slot p = q / N.of_nat n.
Proof.
  intros Hn Hd F. assert (Hn' : N.of_nat n <> 0) by lia.
  assert (MM : forall b, (b mod (N.of_nat n * 65536)) mod N.of_nat n = b mod N.of_nat n).
  { intros b. rewrite N.mod_mul_r by lia. rewrite N.mul_comm, N.mod_add by lia. apply N.mod_mod; lia. }
  assert (MD : forall b, (b mod (N.of_nat n * 65536)) / N.of_nat n = (b / N.of_nat n) mod 65536).
  { intros b. rewrite N.mod_mul_r by lia. rewrite N.mul_comm, N.div_add by lia.
    rewrite (N.div_small (b mod N.of_nat n)) by (apply N.mod_lt; lia). lia. }
  rewrite Forall_forall in F.
  assert (DB : forall b, In b bs -> b / N.of_nat n < 4294967296).
  { intros b Hb. apply F in Hb. eapply N.le_lt_trans; [|exact Hb]. apply N.div_le_upper_bound; [lia|]. nia. }
  split.
  - intros (b & Hb & <-). split; [apply N.mod_lt; lia|]. rewrite MM, MD.
    exists (post_make did (b / N.of_nat n)). split.
    + apply in_batches. pose proof (N.mod_lt b (N.of_nat n) Hn'). split; [lia|].
      exists b. split; [exact Hb|]. split; [lia|reflexivity].
    + apply post_make_slot; auto.
  - intros (Hq & p & Hp & S). apply in_batches in Hp. destruct Hp as (_ & b & Hb & E & ->).
    exists b. split; [exact Hb|]. rewrite post_make_slot in S by auto. rewrite N2Nat.id in E.
    rewrite N.mod_mul_r by lia. rewrite S, E. rewrite N.add_comm. symmetry. apply N.div_mod. exact Hn'.
Qed.

(** Shared runs of words. *)
Lemma shared_run H k m n a1 x1 w b1 a2 x2 b2 : (0 < k)%nat -> (0 < m)%nat -> length w = (k * m)%nat ->
  exists q, In q (spec_blots H k m (a1 ++ x1 :: w ++ b1)) /\ In q (spec_blots H k m (a2 ++ x2 :: w ++ b2)) /\
   (exists i1 i2, carries H k m n (a1 ++ x1 :: w ++ b1) (q mod (N.of_nat n * 65536)) i1 /\
                  carries H k m n (a2 ++ x2 :: w ++ b2) (q mod (N.of_nat n * 65536)) i2).
Proof.
  intros Hk Hm L.
  assert (P : forall a (x : bytes) b, let i := (length a + k * m)%nat in
    (k * m <= i < length (a ++ x :: w ++ b))%nat /\
    blot_of H k m (firstn (S i) (a ++ x :: w ++ b)) = blot_of H k m w).
  { intros a x b. cbv zeta. rewrite !app_length. cbn [length]. rewrite app_length. split; [lia|].
    replace (firstn (S (length a + k * m)) (a ++ x :: w ++ b)) with ((a ++ [x]) ++ w).
    - pose proof (blot_of_suffix H k m (a ++ [x]) [] w) as S. cbn [app] in S. apply S. nia.
    - replace (a ++ x :: w ++ b) with (((a ++ [x]) ++ w) ++ b) by (rewrite <- !app_assoc; reflexivity).
      symmetry. apply firstn_app_exact. rewrite !app_length. cbn [length]. lia. }
  assert (B : forall a (x : bytes) b, In (blot_of H k m w) (spec_blots H k m (a ++ x :: w ++ b))).
  { intros a x b. destruct (P a x b) as [R E]. unfold spec_blots. apply in_map_iff.
    exists (length a + k * m)%nat. split; [exact E|]. apply in_seq. lia. }
  exists (blot_of H k m w). split; [apply B|]. split; [apply B|].
  exists (length a1 + k * m)%nat, (length a2 + k * m)%nat.
  split; (split; [apply P|]); f_equal; apply P.
Qed.


(** Words of a text ending in a character that is not part of a word. *)
Lemma words_tail cls rs c : cls c = false -> words cls (rs ++ [c]) = words cls rs.
Proof.
  intros Hc. unfold words. destruct (removelast_app_last (runs cls rs)) as [E|[[b run] E]].
  - assert (rs = []) as -> by (pose proof (runs_cat cls rs) as C; rewrite E in C; symmetry; exact C).
    cbn [app]. rewrite runs_single, Hc. reflexivity.
  - remember (removelast (runs cls rs)) as R. rewrite (runs_snoc cls rs _ _ _ c E), E, Hc.
    destruct b; cbn [Bool.eqb]; rewrite !filter_app; reflexivity.
Qed.
