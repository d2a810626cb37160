(** Reading a posting file some of whose writes failed. *)
From Verif Require Import Model.Base Model.Varint Model.Post Model.Poster Model.Shard Model.Fault
  Spec.Postings Spec.Reading Proof.Tactics Proof.VarintP Proof.PosterP Proof.ShardP Proof.KeepP Proof.FaultP Proof.FaultP2.
Local Open Scope N_scope.

(** * Good chunks *)
Lemma read_next_chunk f off ds lk f' r : skipn off f = hdr (payload ds) ++ payload ds ++ lk ++ f' -> length lk = 8%nat -> chunk_ok ds ->
  r_nextpos r = Z.of_nat off ->
  read_next r f = Ok (MkPosts 0 (i64_of_u64 (be64 lk)) (last (sums (r_current r) ds) (r_current r)) (sums (r_current r) ds)).
Proof.
  intros Sk Lk (Hne & Hd & Hp) Hr. unfold read_next. rewrite Hr. unfold hdr in Sk.
  rewrite (read_varint_at_spec f off (Z.of_nat (length (payload ds) + 8)) _ ltac:(lia) Sk).
  cbn [wrap_err bind]. unfold reader_buf.
  assert ((Z.of_nat (length (payload ds) + 8) <? 0)%Z || (530 <? Z.of_nat (length (payload ds) + 8))%Z = false) as ->
    by (apply orb_false_intro; lia).
  set (h := put_varint (Z.of_nat (length (payload ds) + 8))) in *.
  unfold zlen. rewrite <- Nat2Z.inj_add.
  replace (length (payload ds) + 8)%nat with (length (payload ds ++ lk)) by (rewrite app_length, Lk; reflexivity).
  rewrite (pread_skipn _ _ _ f').
  2: rewrite app_length; lia.
  2: rewrite skipn_add, Sk, skipn_app_exact by reflexivity; rewrite <- app_assoc; reflexivity.
  cbn [wrap_err bind]. rewrite app_length, Lk.
  replace (Z.of_nat (length (payload ds) + 8) - 8)%Z with (0 + Z.of_nat (length (payload ds)))%Z by lia.
  rewrite decode_chunk_spec; auto.
  pose proof (payload_length_ge ds); lia.
Qed.

Lemma i64_link z : (-9223372036854775808 <= z < 9223372036854775808)%Z -> i64_of_u64 (be64 (link_bytes z)) = z.
Proof.
  intros H. unfold link_bytes. rewrite <- (app_nil_r (put_be64 _)), be64_put by apply u64_of_i64_range.
  apply i64_u64. exact H.
Qed.

Lemma reads_same f r r' out : posts_next r f = posts_next r' f -> reads f r out -> reads f r' out.
Proof. intros E. destruct out; cbn [reads]; rewrite E; auto. Qed.

(** Next, when the buffer is used up and the next chunk is a good one. *)
Lemma next_chunk f fin items l1 s ds l2 n cur ids : fin8 fin -> f = irender fin 0 items ->
  items = l1 ++ Chunk s (payload ds) :: l2 -> (Z.of_nat (isize items) < 9223372036854775808)%Z ->
  chunk_ok ds -> n = length ids -> fin s = ff8 \/ inext s (isize l1 + item_len (Chunk s (payload ds))) l2 <> (-1)%Z ->
  posts_next (MkPosts n (Z.of_nat (isize l1)) cur ids) f =
  posts_next (MkPosts 0 (inext s (isize l1 + item_len (Chunk s (payload ds))) l2) (last (sums cur ds) cur) (sums cur ds)) f.
Proof.
  intros F -> -> Hsz Ok Hn Hfin. unfold posts_next at 1. cbn [r_i r_docids r_nextpos].
  assert ((n =? length ids)%nat = true) as -> by (apply Nat.eqb_eq; auto).
  destruct (Z.eqb_spec (Z.of_nat (isize l1)) (-1)); [lia|].
  pose proof (skipn_irender fin l1 F 0 (Chunk s (payload ds) :: l2)) as Sk. rewrite Nat.add_0_l in Sk. cbn [irender] in Sk.
  set (nx := inext s (isize l1 + item_len (Chunk s (payload ds))) l2) in *.
  set (lk := if (nx =? -1)%Z then fin s else link_bytes nx) in *.
  assert (lk = link_bytes nx) as Elk.
  { unfold lk. destruct (Z.eqb_spec nx (-1)) as [E|E]; [|reflexivity]. destruct Hfin as [->|]; [rewrite E; reflexivity|congruence]. }
  clearbody lk. subst lk.
  rewrite (read_next_chunk _ _ ds _ _ (MkPosts n (Z.of_nat (isize l1)) cur ids) Sk (link_bytes_length _) Ok eq_refl). cbn [r_current bind r_i r_docids].
  rewrite i64_link.
  2:{ unfold nx. rewrite isize_app in Hsz. cbn [isize] in Hsz.
      destruct (inext_range s l2 (isize l1 + item_len (Chunk s (payload ds)))) as [->|R]; [lia|].
      set (il := item_len (Chunk s (payload ds))) in *. lia. }
  destruct Ok as (Hne & _). destruct ds as [|d0 ds0]; [congruence|].
  unfold posts_next. cbn [r_i r_docids sums length Nat.eqb bind nth_error r_nextpos r_current]. reflexivity.
Qed.

Lemma inext_skip s i base r : is_of s i = false -> inext s base (i :: r) = inext s (base + item_len i) r.
Proof. intros H. cbn [inext]. rewrite H. reflexivity. Qed.
Lemma isize_snoc l i : isize (l ++ [i]) = (isize l + item_len i)%nat.
Proof. rewrite isize_app. cbn [isize]. lia. Qed.
Lemma is_of_cases s i r : (exists pl, i = Chunk s pl /\ ichunks s (i :: r) = pl :: ichunks s r) \/
  (is_of s i = false /\ ichunks s (i :: r) = ichunks s r).
Proof.
  destruct i as [s' pl|b]; cbn [is_of ichunks]; [|auto]. destruct (Nat.eqb_spec s' s) as [->|]; [|auto]. left. eauto.
Qed.

Lemma ireads fin items s : fin8 fin -> (Z.of_nat (isize items) < 9223372036854775808)%Z -> fin s = ff8 ->
  forall l2 l1 n cur ids dss, items = l1 ++ l2 -> n = length ids ->
  ichunks s l2 = map payload dss -> Forall chunk_ok dss ->
  reads (irender fin 0 items) (MkPosts n (inext s (isize l1) l2) cur ids) (sums cur (concat dss)).
Proof.
  intros F Hsz Hfin. induction l2 as [|i r IH]; intros l1 n cur ids dss Hit Hn Hc Hok.
  - destruct dss; [|discriminate Hc]. cbn [inext concat sums reads]. unfold posts_next.
    cbn [r_i r_docids r_nextpos]. assert ((n =? length ids)%nat = true) as -> by (apply Nat.eqb_eq; auto).
    change (-1 =? -1)%Z with true. reflexivity.
  - destruct (is_of_cases s i r) as [(pl & -> & E)|[E1 E2]].
    + rewrite E in Hc. destruct dss as [|ds dss]; [discriminate Hc|]. cbn [map] in Hc.
      injection Hc as -> Hc. pose proof (Forall_inv Hok) as Ok1. apply Forall_inv_tail in Hok. cbn [inext is_of]. rewrite Nat.eqb_refl. cbn [concat]. rewrite sums_app.
      eapply reads_same.
      { symmetry. apply (next_chunk _ fin _ l1 s ds r n cur ids F eq_refl Hit Hsz); auto. }
      apply (reads_buffered _ _ (sums cur ds) 0 _ _ []); [reflexivity|]. cbn [app].
      rewrite <- isize_snoc. apply IH; auto. rewrite <- app_assoc. exact Hit.
    + rewrite E2 in Hc. rewrite inext_skip by exact E1. rewrite <- isize_snoc. apply IH; auto. rewrite <- app_assoc. exact Hit.
Qed.

(** * The chunk written after a failed write *)
Lemma lor_big a b : 2 ^ 32 <= a -> 2 ^ 32 <= N.lor a b.
Proof.
  intros H. destruct (N.le_gt_cases (2 ^ 32) (N.lor a b)) as [|L]; [assumption|]. exfalso.
  assert (N.log2 (N.lor a b) < 32) as L1.
  { destruct (N.eq_dec (N.lor a b) 0) as [Z|Z]; [rewrite Z; reflexivity|]. apply N.log2_lt_pow2; [lia|exact L]. }
  rewrite N.log2_lor in L1. assert (32 <= N.log2 a) by (apply N.log2_le_pow2; [|exact H]; apply N.lt_le_trans with (2 ^ 32); [reflexivity|exact H]).
  lia.
Qed.
Lemma uvarint_over l : forall i x s, (10 <= i)%nat -> (snd (uvarint_aux l i x s) <= 0)%Z.
Proof.
  induction l as [|b l IH]; intros i x s H; cbn [uvarint_aux]; [cbn; lia|].
  destruct (b <? 128); [|apply IH; lia]. unfold max_varint_len64. assert ((10 <=? i)%nat = true) as -> by (apply Nat.leb_le; lia).
  cbn [orb snd]. lia.
Qed.
Lemma uvarint_ff tail d t : uvarint (ff8 ++ tail) = (d, t) -> (t <= 0)%Z \/ 4294967296 <= d.
Proof.
  change ff8 with [255; 255; 255; 255; 255; 255; 255; 255]. unfold uvarint. cbn [app].
  do 8 (cbn [uvarint_aux]; change (255 <? 128) with false; cbn iota).
  match goal with |- uvarint_aux _ _ ?x ?s = _ -> _ => set (X := x); set (S0 := s) end.
  assert (2 ^ 32 <= X) as HX by (unfold X; vm_compute; discriminate).
  clearbody X S0. change 4294967296 with (2 ^ 32).
  destruct tail as [|b1 tail]; cbn [uvarint_aux]; intros H; [inv H; lia|].
  destruct (b1 <? 128).
  { cbn in H. inv H. right. apply lor_big, HX. }
  destruct tail as [|b2 tail]; cbn [uvarint_aux] in H; [inv H; lia|].
  destruct (b2 <? 128).
  { destruct (_ || _); inv H; [lia|]. right. do 2 apply lor_big. exact HX. }
  match type of H with ?u = _ => pose proof (uvarint_over tail 10 (snd (0, 0)) 0 ltac:(lia)) as Z0; assert ((snd u <= 0)%Z) as Z by (apply uvarint_over; lia) end.
  rewrite H in Z. cbn [snd] in Z. lia.
Qed.

Definition neither {A} (r : result A) : Prop := (forall v, r <> Ok v) /\ r <> Err EOF.
Lemma decode_bad pend : forall fuel i cur ids tail len8, Forall d32 pend ->
  (i + Z.of_nat (length (payload pend)) < len8)%Z ->
  neither (decode_chunk fuel (payload pend ++ ff8 ++ tail) i len8 cur ids).
Proof.
  induction pend as [|d r IH]; intros fuel i cur ids tail len8 Hd Hl; (destruct fuel as [|k]; [split; discriminate|]).
  - cbn [decode_chunk]. change (payload []) with (@nil N). cbn [app].
    destruct (uvarint (ff8 ++ tail)) as [d t] eqn:E. apply uvarint_ff in E.
    destruct (Z.leb_spec t 0); [split; discriminate|]. destruct E as [E|E]; [lia|].
    apply N.leb_le in E. rewrite E. split; discriminate.
  - inv Hd. unfold d32 in *. cbn [decode_chunk].
    change (payload (d :: r)) with (put_uvarint d ++ payload r) in *.
    rewrite app_length in Hl. rewrite <- app_assoc, uvarint_put by lia.
    pose proof (put_uvarint_nonempty d) as Hn.
    assert ((Z.of_nat (length (put_uvarint d)) <=? 0)%Z = false) as -> by lia.
    assert ((4294967296 <=? d) = false) as -> by lia.
    rewrite Nat2Z.id, skipn_app_exact by reflexivity.
    assert ((len8 <? i + Z.of_nat (length (put_uvarint d)))%Z = false) as -> by lia.
    assert ((i + Z.of_nat (length (put_uvarint d)) =? len8)%Z = false) as -> by lia.
    apply IH; [assumption|]. lia.
Qed.

Lemma read_next_bad f off b lk f' r : skipn off f = hdr b ++ b ++ lk ++ f' -> length lk = 8%nat -> bad_payload b ->
  (Z.of_nat (length b + 8) < 9223372036854775808)%Z ->
  r_nextpos r = Z.of_nat off -> neither (read_next r f).
Proof.
  intros Sk Lk (pend & tail & Eb & Hne & Hd) Hsz Hr. unfold read_next. rewrite Hr. unfold hdr in Sk.
  rewrite (read_varint_at_spec f off (Z.of_nat (length b + 8)) _ ltac:(lia) Sk).
  cbn [wrap_err bind]. destruct (_ || _); [split; discriminate|].
  set (h := put_varint (Z.of_nat (length b + 8))) in *.
  unfold zlen. rewrite <- Nat2Z.inj_add.
  replace (length b + 8)%nat with (length (b ++ lk)) by (rewrite app_length, Lk; reflexivity).
  rewrite (pread_skipn _ _ _ f').
  2: rewrite app_length; lia.
  2: rewrite skipn_add, Sk, skipn_app_exact by reflexivity; rewrite <- app_assoc; reflexivity.
  cbn [wrap_err bind]. rewrite app_length, Lk.
  assert (neither (decode_chunk (S (length b + 8)) (b ++ lk) 0 (Z.of_nat (length b + 8) - 8) (r_current r) [])) as [D1 D2].
  { rewrite Eb, <- !app_assoc. apply decode_bad; [exact Hd|]. unfold ff8. rewrite !app_length, link_bytes_length. lia. }
  destruct (decode_chunk _ _ _ _ _ _) as [[[ids cur] rest]|e| |]; cbn [bind]; split; try discriminate.
  - exfalso. eapply D1. reflexivity.
  - intros Z. apply D2. congruence.
Qed.

Lemma buffered_inv f out : forall todo i np cur done,
  i = length done -> reads f (MkPosts i np cur (done ++ todo)) out ->
  exists out', out = todo ++ out' /\ reads f (MkPosts (length (done ++ todo)) np cur (done ++ todo)) out'.
Proof.
  intros todo. revert out. induction todo as [|d t IH]; intros out i np cur done -> H.
  - exists out. rewrite app_nil_r in *. auto.
  - assert (posts_next (MkPosts (length done) np cur (done ++ d :: t)) f =
            Ok (d, MkPosts (S (length done)) np cur (done ++ d :: t))) as E.
    { unfold posts_next. cbn [r_i r_docids r_nextpos r_current].
      assert ((length done =? length (done ++ d :: t))%nat = false) as ->
        by (rewrite app_length; cbn [length]; lia).
      cbn [bind r_i r_docids]. rewrite nth_error_app2, Nat.sub_diag by lia. reflexivity. }
    destruct out as [|o out]; cbn [reads] in H; rewrite E in H; [discriminate H|].
    destruct H as (r' & H1 & H2). injection H1 as <- <-.
    replace (done ++ d :: t) with ((done ++ [d]) ++ t) in * by (rewrite <- app_assoc; reflexivity).
    destruct (IH out (S (length done)) np cur (done ++ [d])) as (out' & -> & R); [rewrite app_length; cbn [length]; lia|exact H2|].
    exists out'. split; [reflexivity|exact R].
Qed.

Lemma dead_unreadable fin items s : fin8 fin -> (Z.of_nat (isize items) < 9223372036854775808)%Z ->
  forall l2 l1 n cur ids dss b rest, items = l1 ++ l2 -> n = length ids ->
  ichunks s l2 = map payload dss ++ b :: rest -> Forall chunk_ok dss -> bad_payload b ->
  forall out, ~ reads (irender fin 0 items) (MkPosts n (inext s (isize l1) l2) cur ids) out.
Proof.
  intros F Hsz. induction l2 as [|i r IH]; intros l1 n cur ids dss b rest Hit Hn Hc Hok Hb out.
  - destruct dss; discriminate Hc.
  - destruct (is_of_cases s i r) as [(pl & -> & E)|[E1 E2]].
    + rewrite E in Hc. cbn [inext is_of]. rewrite Nat.eqb_refl. destruct dss as [|ds dss]; cbn [map app] in Hc.
      * injection Hc as -> Hc.
        pose proof (skipn_irender fin l1 F 0 (Chunk s b :: r)) as Sk. rewrite Nat.add_0_l, <- Hit in Sk. cbn [irender] in Sk.
        set (lk := if (inext s (isize l1 + item_len (Chunk s b)) r =? -1)%Z then _ else _) in Sk.
        assert (length lk = 8%nat) as Lk by (unfold lk; destruct (_ =? -1)%Z; [apply F|apply link_bytes_length]).
        assert (Z.of_nat (length b + 8) < 9223372036854775808)%Z as Lb.
        { rewrite Hit, isize_app in Hsz. cbn [isize item_len] in Hsz. lia. }
        destruct (read_next_bad _ _ b lk _ (MkPosts n (Z.of_nat (isize l1)) cur ids) Sk Lk Hb Lb eq_refl) as [N1 N2].
        destruct out as [|o out]; cbn [reads]; unfold posts_next; cbn [r_i r_docids r_nextpos];
          (assert ((n =? length ids)%nat = true) as -> by (apply Nat.eqb_eq; auto));
          (destruct (Z.eqb_spec (Z.of_nat (isize l1)) (-1)); [lia|]).
        -- destruct (read_next _ _) as [v|e| |]; cbn [bind]; try discriminate.
           ++ exfalso. eapply N1. reflexivity.
           ++ intros Z. apply N2. congruence.
        -- intros (r' & Z & _). destruct (read_next _ _) as [v|e| |]; cbn [bind] in Z; try discriminate Z.
           eapply N1. reflexivity.
      * injection Hc as -> Hc. pose proof (Forall_inv Hok) as Ok1. apply Forall_inv_tail in Hok.
        assert (inext s (isize l1 + item_len (Chunk s (payload ds))) r <> (-1)%Z) as Hnx.
        { rewrite inext_none, Hc. destruct dss; discriminate. }
        intros R. eapply reads_same in R.
        2:{ apply (next_chunk _ fin _ l1 s ds r _ cur ids F eq_refl Hit Hsz); auto. }
        change (sums cur ds) with ([] ++ sums cur ds) in R. 
        apply (buffered_inv _ _ (sums cur ds) 0 _ _ []) in R; [|reflexivity].
        destruct R as (out' & _ & R). cbn [app] in R. rewrite <- isize_snoc in R.
        revert R. apply (IH _ _ _ _ dss b rest); auto. rewrite <- app_assoc. exact Hit.
    + rewrite E2 in Hc. rewrite inext_skip by exact E1. rewrite <- isize_snoc. apply (IH _ _ _ _ dss b rest); auto.
      rewrite <- app_assoc. exact Hit.
Qed.
