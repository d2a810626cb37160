(** FindBlot and FindBlots in the form of C40-C42. *)
From Coq Require Import String.
From Verif Require Import Model.Base Model.Utf8 Model.Token Model.Blotter Model.Post Model.Address Model.Config Model.Index Model.Shatter.
From Verif Require Import Spec.Text Spec.Fingerprint Spec.Configs Spec.Str.
From Verif Require Import Proof.Tactics Proof.Utf8P Proof.TokenP Proof.BlotterP Proof.ShatterP Proof.IndexP Proof.IndexP2 Proof.BlotsP.
Local Open Scope N_scope.

Section F.
  Context (u : unicode) (c : config) (k m n : nat).
  Hypothesis C : cfg_ok c k m n.
  Hypothesis Hn : N.of_nat n < 65536.
  Notation H := (word_hash u).

  Lemma at_range_small d sp off i s e : doc_spans (word_char u) d sp -> off + nlen d < 2 ^ 32 ->
    at_range k m off sp i s e ->
    exists a b, nth_error sp (i - k * m) = Some a /\ nth_error sp i = Some b /\
      s = off + N.of_nat (fst a) /\ e = off + N.of_nat (snd b) /\ (fst a <= snd b <= length d)%nat.
  Proof.
    intros S Hb (a & b & Ea & Eb & -> & ->). exists a, b. split; [exact Ea|]. split; [exact Eb|].
    destruct (doc_words_total u d) as [ws W]. pose proof (doc_span_words u d ws sp W S) as F.
    assert (M := doc_spans_mono u d sp (i - k * m) i a b S ltac:(lia) Ea Eb).
    destruct (Forall2_in_r _ _ _ _ _ F Eb) as (wb & _ & _ & Lb). unfold nlen in Hb.
    change (2 ^ 32) with 4294967296 in Hb. unfold u32.
    rewrite !N.mod_small by lia. split; [reflexivity|]. split; [reflexivity|]. lia.
  Qed.

  Theorem find_blot_first d q ws sp :
    doc_words (word_char u) (d_dat d) ws -> doc_spans (word_char u) (d_dat d) sp ->
    d_start d + nlen (d_dat d) < 2 ^ 32 ->
    (exists i a b, carries H k m n ws q i /\ (forall j, (j < i)%nat -> ~ carries H k m n ws q j) /\
       nth_error sp (i - k * m) = Some a /\ nth_error sp i = Some b /\
       (fst a <= snd b <= length (d_dat d))%nat /\
       find_blot u c q d = Ok (d_start d + N.of_nat (fst a), d_start d + N.of_nat (snd b))) \/
    ((forall j, ~ carries H k m n ws q j) /\ find_blot u c q d = Err EOther).
  Proof.
    intros W S Hb. destruct (find_blot_spec u c k m n C Hn d q ws sp W S) as [(i & s & e & Ci & F & A & E)|R]; [left|right; exact R].
    destruct (at_range_small _ _ _ _ _ _ S Hb A) as (a & b & Ea & Eb & -> & -> & L). exists i, a, b. auto 10.
  Qed.

  Theorem find_blots_only_equal mm d res b txt : find_blots u c mm d = Ok res -> tget b res = Some txt ->
    tget b mm = Some txt /\
    exists before after, d_dat d = before ++ txt ++ after.
  Proof.
    intros E T. destruct (doc_words_total u (d_dat d)) as [ws W]. destruct (doc_spans_total u (d_dat d)) as [sp S].
    destruct (find_blots_spec u c k m n C Hn mm d ws sp W S) as [[P _]|(res' & E' & V)]; [congruence|].
    assert (res' = res) as -> by congruence. apply V in T. destruct T as (i & _ & Em & s & e & _ & SL).
    split; [exact Em|]. unfold slice in SL. destruct (_ && _); [|discriminate]. inv SL.
    exists (firstn (N.to_nat s) (d_dat d)), (skipn (N.to_nat e - N.to_nat s) (skipn (N.to_nat s) (d_dat d))).
    unfold sub. rewrite firstn_skipn, firstn_skipn. reflexivity.
  Qed.

  Theorem find_blots_exact mm d ws sp :
    doc_words (word_char u) (d_dat d) ws -> doc_spans (word_char u) (d_dat d) sp ->
    d_start d = 0 -> nlen (d_dat d) < 2 ^ 32 ->
    exists res, find_blots u c mm d = Ok res /\
      forall b txt, tget b res = Some txt <->
        tget b mm = Some txt /\
        exists i a z, carries H k m n ws b i /\ nth_error sp (i - k * m) = Some a /\ nth_error sp i = Some z /\
          sub (fst a) (snd z) (d_dat d) = txt.
  Proof.
    intros W S S0 Hb.
    assert (SL : forall i s e, at_range k m (d_start d) sp i s e -> exists a z, nth_error sp (i - k * m) = Some a /\ nth_error sp i = Some z /\
                slice (d_dat d) s e = Ok (sub (fst a) (snd z) (d_dat d))).
    { intros i s e A. rewrite S0 in A.
      destruct (at_range_small _ _ _ _ _ _ S (ltac:(rewrite N.add_0_l; exact Hb)) A) as (a & z & Ea & Ez & -> & -> & L).
      exists a, z. split; [exact Ea|]. split; [exact Ez|]. unfold slice, nlen. rewrite !N.add_0_l, !Nat2N.id.
      destruct (N.leb_spec (N.of_nat (fst a)) (N.of_nat (snd z))); [|lia].
      destruct (N.leb_spec (N.of_nat (snd z)) (N.of_nat (length (d_dat d)))); [|lia]. reflexivity. }
    destruct (find_blots_spec u c k m n C Hn mm d ws sp W S) as [[_ (i & b & s & e & t & _ & _ & A & P)]|(res & E & V)].
    - destruct (SL _ _ _ A) as (? & ? & _ & _ & X). congruence.
    - exists res. split; [exact E|]. intros b txt. rewrite V. split.
      + intros (i & Ci & Em & s & e & A & X). split; [exact Em|]. destruct (SL _ _ _ A) as (a & z & Ea & Ez & Y).
        exists i, a, z. split; [exact Ci|]. split; [exact Ea|]. split; [exact Ez|]. congruence.
      + intros (Em & i & a & z & Ci & Ea & Ez & <-). exists i. split; [exact Ci|]. split; [exact Em|].
        assert (A : at_range k m (d_start d) sp i (u32 (d_start d + N.of_nat (fst a))) (u32 (d_start d + N.of_nat (snd z)))).
        { exists a, z. auto. }
        do 2 eexists. split; [exact A|]. destruct (SL _ _ _ A) as (a' & z' & Ea' & Ez' & Y). congruence.
  Qed.

  Theorem find_blot_shift d q : d_start d + nlen (d_dat d) < 2 ^ 32 ->
    find_blot u c q d =
      do! (s, e) <- find_blot u c q (MkDoc (d_path d) 0 (d_end d) (d_dat d)); Ok (d_start d + s, d_start d + e).
  Proof.
    intros Hb. destruct (doc_words_total u (d_dat d)) as [ws W]. destruct (doc_spans_total u (d_dat d)) as [sp S].
    set (d0 := MkDoc (d_path d) 0 (d_end d) (d_dat d)).
    destruct (find_blot_first d q ws sp W S Hb) as [(i & a & b & Ci & F & Ea & Eb & _ & E)|(N1 & E)];
    destruct (find_blot_first d0 q ws sp W S ltac:(cbn [d_start d_dat d0]; lia)) as [(i' & a' & b' & Ci' & F' & Ea' & Eb' & _ & E')|(N2 & E')];
      rewrite E, E'; cbn [bind d_start d0].
    - assert (i' = i) as ->.
      { destruct (Nat.lt_trichotomy i i') as [X|[X|X]]; [destruct (F' i X Ci)|auto|destruct (F i' X Ci')]. }
      assert (a' = a) as -> by congruence. assert (b' = b) as -> by congruence. do 2 f_equal; lia.
    - destruct (N2 i Ci).
    - destruct (N1 i' Ci').
    - reflexivity.
  Qed.

  (** A search that returns has taken the text of every place whose blot is wanted. *)
  Lemma find_blots_loop_slices mm dat off w2 : forall s2 w1 s1 b res res',
    length w1 = length s1 -> Forall2 fits (w1 ++ w2) (s1 ++ s2) -> blotter_inv u k m w1 b ->
    find_blots_loop u c mm dat (map (tok_of off) (combine (w1 ++ w2) (s1 ++ s2))) b (Z.of_nat (length w1))
         (map (tok_of off) (combine w2 s2)) res = Ok res' ->
    forall i b0 t s e, (length w1 <= i)%nat -> carries H k m n (w1 ++ w2) b0 i -> tget b0 mm = Some t ->
      at_range k m off (s1 ++ s2) i s e -> slice dat s e <> Panic.
  Proof.
    induction w2 as [|w w2 IH]; intros s2 w1 s1 b res res' L F I E i b0 t s e Li Ca Tg AR.
    - rewrite app_nil_r in Ca. destruct Ca as [Ca _]. lia.
    - assert (LF := Forall2_len _ _ _ F). rewrite !app_length in LF. cbn [length] in LF.
      destruct s2 as [|sp s2]; [cbn [length] in LF; lia|].
      cbn [combine map find_blots_loop] in E. change (t_lit (tok_of off (w, sp))) with w in E.
      destruct (blotter_step u k m w1 b w I) as (b1 & E1 & I1). rewrite E1 in E. cbn [bind] in E.
      rewrite (co_seqlen _ _ _ _ C), (blot_space_ok _ _ _ _ C Hn) in E.
      assert (A1 : w1 ++ w :: w2 = (w1 ++ [w]) ++ w2) by (rewrite <- app_assoc; reflexivity).
      assert (A2 : s1 ++ sp :: s2 = (s1 ++ [sp]) ++ s2) by (rewrite <- app_assoc; reflexivity).
      assert (NEXT : forall res1, find_blots_loop u c mm dat (map (tok_of off) (combine (w1 ++ w :: w2) (s1 ++ sp :: s2))) b1
                   (Z.of_nat (length w1) + 1) (map (tok_of off) (combine w2 s2)) res1 = Ok res' ->
                   i <> length w1 -> slice dat s e <> Panic).
      { intros res1 X Ni. rewrite A1, A2 in *.
        replace (Z.of_nat (length w1) + 1)%Z with (Z.of_nat (length (w1 ++ [w]))) in X by (rewrite app_length; cbn [length]; lia).
        apply (IH s2 (w1 ++ [w]) (s1 ++ [sp]) b1 res1 res') with (i := i) (b0 := b0) (t := t); auto; rewrite !app_length; cbn [length]; lia. }
      destruct (Nat.eq_dec i (length w1)) as [->|Ni].
      + destruct Ca as [Ca Eb]. rewrite firstn_S_middle in Eb.
        destruct (Z.ltb_spec (Z.of_nat (length w1)) (Z.of_nat (k * m))) as [Lt|Ge]; [lia|].
        destruct (N.eqb_spec (N.of_nat n * 65536) 0) as [Z|_]; [discriminate|]. rewrite Eb, Tg in E.
        destruct AR as (a & z & Ea & Ez & -> & ->).
        replace (Z.to_nat (Z.of_nat (length w1) - Z.of_nat (k * m))) with (length w1 - k * m)%nat in E by lia.
        assert (Esp : nth_error (s1 ++ sp :: s2) (length w1) = Some sp) by (rewrite nth_error_app2 by lia; rewrite L, Nat.sub_diag; reflexivity).
        assert (z = sp) as -> by congruence.
        rewrite nth_error_map in E.
        destruct (nth_some (w1 ++ w :: w2) (length w1 - k * m)) as [x Ex]; [rewrite app_length; cbn [length]; lia|].
        rewrite (nth_combine _ _ _ x a Ex Ea) in E. cbn [option_map] in E.
        change (t_pos (tok_of off (x, a))) with (u32 (off + N.of_nat (fst a))) in E.
        change (t_pos (tok_of off (w, sp))) with (u32 (off + N.of_nat (fst sp))) in E.
        rewrite (end_pos n Hn) in E; cycle 1.
        { apply (Forall2_nth _ _ _ (length w1) w sp F); [|exact Esp].
          rewrite nth_error_app2 by lia. rewrite Nat.sub_diag. reflexivity. }
        intros P. rewrite P in E. discriminate.
      + destruct (_ <? _)%Z; [eapply NEXT; eauto|]. destruct (_ =? 0); [discriminate|]. destruct (tget _ mm); [|eapply NEXT; eauto].
        destruct (nth_error _ _) as [t0|]; [|discriminate]. destruct (slice _ _ _) as [txt| | |]; cbn [bind] in E; try discriminate; eapply NEXT; eauto.
  Qed.
  (** For any start: it panics if a place whose blot is wanted ends, counted in the file,
      behind the end of the data; otherwise it compares with the data at the positions in the
      file. *)
  Theorem find_blots_any mm d ws sp :
    doc_words (word_char u) (d_dat d) ws -> doc_spans (word_char u) (d_dat d) sp ->
    d_start d + nlen (d_dat d) < 2 ^ 32 ->
    let wanted b i a z := carries H k m n ws b i /\ nth_error sp (i - k * m) = Some a /\ nth_error sp i = Some z /\ tget b mm <> None in
    ((exists b i a z, wanted b i a z /\ nlen (d_dat d) < d_start d + N.of_nat (snd z)) -> find_blots u c mm d = Panic) /\
    ((forall b i a z, wanted b i a z -> d_start d + N.of_nat (snd z) <= nlen (d_dat d)) ->
      exists res, find_blots u c mm d = Ok res /\ forall b txt, tget b res = Some txt <->
        tget b mm = Some txt /\ exists i a z, wanted b i a z /\ sub (N.to_nat (d_start d) + fst a) (N.to_nat (d_start d) + snd z) (d_dat d) = txt).
  Proof.
    intros W S Hb wanted.
    assert (SL : forall i s e, at_range k m (d_start d) sp i s e -> exists a z, nth_error sp (i - k * m) = Some a /\ nth_error sp i = Some z /\
                (slice (d_dat d) s e = if d_start d + N.of_nat (snd z) <=? nlen (d_dat d) then Ok (sub (N.to_nat (d_start d) + fst a) (N.to_nat (d_start d) + snd z) (d_dat d)) else Panic)).
    { intros i s e A. destruct (at_range_small _ _ _ _ _ _ S Hb A) as (a & z & Ea & Ez & -> & -> & L).
      exists a, z. split; [exact Ea|]. split; [exact Ez|]. unfold slice.
      destruct (N.leb_spec (d_start d + N.of_nat (fst a)) (d_start d + N.of_nat (snd z))); [|lia]. cbn [andb].
      destruct (_ <=? _); [|reflexivity]. rewrite !N2Nat.inj_add, !Nat2N.id. reflexivity. }
    assert (AR : forall i a z, nth_error sp (i - k * m) = Some a -> nth_error sp i = Some z ->
      at_range k m (d_start d) sp i (u32 (d_start d + N.of_nat (fst a))) (u32 (d_start d + N.of_nat (snd z)))) by (intros i a z; exists a, z; auto).
    split.
    - intros (b & i & a & z & (Ca & Ea & Ez & Tg) & Lz). destruct (tget b mm) as [t|] eqn:Et; [clear Tg|congruence].
      destruct (find_blots_spec u c k m n C Hn mm d ws sp W S) as [[P _]|(res & E & _)]; [exact P|]. exfalso.
      assert (NP : slice (d_dat d) (u32 (d_start d + N.of_nat (fst a))) (u32 (d_start d + N.of_nat (snd z))) <> Panic).
      { unfold find_blots in E. rewrite (idx_tokenize_ok u c k m n) in E by exact C. cbn [bind] in E.
        destruct (idx_blotter_ok u c k m n C) as (b' & E' & I). rewrite E' in E. cbn [bind] in E.
        destruct (doc_toks u _ (d_start d) _ _ W S) as [T F]. rewrite T in E.
        apply (find_blots_loop_slices mm (d_dat d) (d_start d) ws sp [] [] b' [] res eq_refl F I E i b t); [cbn [length]; lia|exact Ca|exact Et|exact (AR i a z Ea Ez)]. }
      destruct (SL _ _ _ (AR i a z Ea Ez)) as (a' & z' & Ea' & Ez' & Es). assert (z' = z) as -> by congruence. rewrite Es in NP.
      destruct (N.leb_spec (d_start d + N.of_nat (snd z)) (nlen (d_dat d))); [lia|]. congruence.
    - intros Al. destruct (find_blots_spec u c k m n C Hn mm d ws sp W S) as [[_ (i & b & s & e & t & Ca & Tg & A & P)]|(res & E & V)].
      + exfalso. destruct (SL _ _ _ A) as (a & z & Ea & Ez & Es). rewrite Es in P.
        pose proof (Al b i a z ltac:(split; [exact Ca|]; split; [exact Ea|]; split; [exact Ez|congruence])) as Lz. destruct (N.leb_spec (d_start d + N.of_nat (snd z)) (nlen (d_dat d))); [discriminate|lia].
      + exists res. split; [exact E|]. intros b txt. rewrite V. split.
        * intros (i & Ca & Em & s & e & A & X). split; [exact Em|]. destruct (SL _ _ _ A) as (a & z & Ea & Ez & Es).
          exists i, a, z. split; [split; [exact Ca|]; split; [exact Ea|]; split; [exact Ez|congruence]|].
          rewrite Es in X. destruct (_ <=? _); [congruence|discriminate].
        * intros (Em & i & a & z & Wa & <-). exists i. pose proof (Al b i a z Wa) as Lz. destruct Wa as (Ca & Ea & Ez & _). split; [exact Ca|]. split; [exact Em|].
          do 2 eexists. split; [exact (AR i a z Ea Ez)|]. destruct (SL _ _ _ (AR i a z Ea Ez)) as (a' & z' & Ea' & Ez' & Es).
          assert (a' = a) as -> by congruence. assert (z' = z) as -> by congruence. rewrite Es.
          destruct (N.leb_spec (d_start d + N.of_nat (snd z)) (nlen (d_dat d))); [reflexivity|lia].
  Qed.
End F.
