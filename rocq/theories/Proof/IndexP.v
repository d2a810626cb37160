(** BlotDoc, FindBlot, FindBlots. *)
From Verif Require Import Model.Base Model.Utf8 Model.Token Model.Blotter Model.Post Model.Address Model.Shatter Model.Config Model.Index.
From Verif Require Import Spec.Text Spec.Fingerprint Spec.Configs.
From Verif Require Import Proof.Tactics Proof.Utf8P Proof.TokenP Proof.BlotterP Proof.ShatterP Proof.VarintP Proof.AddressP.
Local Open Scope N_scope.

Section Idx.
  Variable u : unicode.
  Notation H := (word_hash u).

  Lemma idx_blotter_ok c k m n : cfg_ok c k m n -> exists b, idx_blotter c = Ok b /\ blotter_inv u k m [] b.
  Proof.
    intros C. destruct (blotter_fresh u k m (co_k _ _ _ _ C) (co_m _ _ _ _ C)) as (b & E & I).
    exists b. unfold idx_blotter. rewrite (co_blot _ _ _ _ C), E. auto.
  Qed.
  Lemma idx_tokenize_ok c k m n dat st : cfg_ok c k m n -> idx_tokenize u c dat st = Ok (tokenize u dat st).
  Proof. intros C. unfold idx_tokenize, token_from_config. rewrite (co_token _ _ _ _ C). reflexivity. Qed.

  Lemma blot_doc_loop_spec k m toks : forall ws b dst, blotter_inv u k m ws b ->
    blot_doc_loop u (Z.of_nat (k * m)) b (Z.of_nat (length ws)) toks (dst ++ spec_blots H k m ws) =
    Ok (dst ++ spec_blots H k m (ws ++ map t_lit toks)).
  Proof.
    induction toks as [|t toks IH]; intros ws b dst I; cbn [blot_doc_loop map].
    - rewrite app_nil_r. reflexivity.
    - destruct (blotter_step u k m ws b (t_lit t) I) as (b1 & E & I1). rewrite E. cbn [bind].
      specialize (IH _ _ dst I1). rewrite app_length in IH. cbn [length] in IH.
      replace (Z.of_nat (length ws) + 1)%Z with (Z.of_nat (length ws + 1)) by lia.
      rewrite <- app_assoc, spec_blots_snoc in IH. cbn [app] in IH.
      destruct (Z.ltb_spec (Z.of_nat (length ws)) (Z.of_nat (k * m))).
      + destruct (Nat.leb_spec (k * m) (length ws)); [lia|]. rewrite app_nil_r in IH. exact IH.
      + destruct (Nat.leb_spec (k * m) (length ws)); [|lia]. rewrite app_assoc in IH. exact IH.
  Qed.
  Theorem blot_doc_spec c k m n dst d ws : cfg_ok c k m n -> doc_words (word_char u) (d_dat d) ws ->
    blot_doc u c dst d = Ok (dst ++ spec_blots H k m ws).
  Proof.
    intros C D. unfold blot_doc. rewrite (idx_tokenize_ok c k m n) by exact C. cbn [bind].
    destruct (idx_blotter_ok _ _ _ _ C) as (b & E & I). rewrite E. cbn [bind].
    rewrite (co_seqlen _ _ _ _ C).
    pose proof (blot_doc_loop_spec k m (filter is_word (tokenize u (d_dat d) (d_start d))) [] b dst I) as L.
    rewrite (doc_words_tok u _ _ _ D) in L. cbn [app length] in L.
    assert (S0 : spec_blots H k m [] = []) by reflexivity. rewrite S0, app_nil_r in L. exact L.
  Qed.

  (** The word tokens, with their places. *)
  Definition tok_of (off : N) (x : bytes * (nat * nat)) : token :=
    MkTok Word (fst x) (u32 (off + N.of_nat (fst (snd x)))).
  Definition fits (w : bytes) (sp : nat * nat) : Prop := snd sp = (fst sp + length w)%nat.

  Lemma spans_toks off R : forall pos,
    filter is_word (toks_of off pos R) =
      map (tok_of off) (combine (map (fun br => utf8s (snd br)) (filter fst R)) (spans pos R)) /\
    Forall2 fits (map (fun br => utf8s (snd br)) (filter fst R)) (spans pos R).
  Proof.
    induction R as [|[b run] R IH]; intros pos; cbn [spans toks_of filter fst map].
    - split; constructor.
    - specialize (IH (pos + length (utf8s run))%nat). destruct IH as [IH IL].
      destruct b; unfold is_word at 1; cbn [t_tag map snd combine].
      + rewrite IH. split; [reflexivity|]. constructor; [reflexivity|exact IL].
      + auto.
  Qed.
  Lemma doc_toks d off ws sp : doc_words (word_char u) d ws -> doc_spans (word_char u) d sp ->
    filter is_word (tokenize u d off) = map (tok_of off) (combine ws sp) /\ Forall2 fits ws sp.
  Proof.
    intros [(rs & T & ->)|(NT & ->)] [(rs' & T' & ->)|(NT' & ->)].
    - assert (rs' = rs) as ->.
      { destruct T as [S1 E1], T' as [S2 E2]. apply utf8s_inj; auto. congruence. }
      rewrite (tokenize_text u d rs off T). apply spans_toks.
    - exfalso. exact (NT' _ T).
    - exfalso. exact (NT _ T').
    - rewrite tokenize_invalid by exact NT. split; constructor.
  Qed.
  Lemma doc_spans_total d : exists sp, doc_spans (word_char u) d sp.
  Proof.
    destruct (utf8_valid d) eqn:E.
    - apply utf8_valid_spec in E. destruct E as [rs T]. eexists. left. eauto.
    - exists []. right. split; [|reflexivity]. intros rs T.
      assert (utf8_valid d = true) by (apply utf8_valid_spec; eauto). congruence.
  Qed.

  (** The spans are where the words are, one after another. *)
  Lemma spans_sub R : forall pos,
    Forall2 (fun w s => sub (fst s - pos) (snd s - pos) (utf8s (cat R)) = w /\ (pos <= fst s)%nat /\
                        (snd s <= pos + length (utf8s (cat R)))%nat)
      (map (fun br => utf8s (snd br)) (filter fst R)) (spans pos R).
  Proof.
    induction R as [|[b run] R IH]; intros pos; cbn [spans filter fst map].
    - constructor.
    - specialize (IH (pos + length (utf8s run))%nat).
      assert (M : Forall2 (fun w s => sub (fst s - pos) (snd s - pos) (utf8s (cat ((b, run) :: R))) = w /\
                   (pos <= fst s)%nat /\ (snd s <= pos + length (utf8s (cat ((b, run) :: R))))%nat)
               (map (fun br => utf8s (snd br)) (filter fst R)) (spans (pos + length (utf8s run)) R)).
      { eapply Forall2_impl; [|exact IH]. intros w s (A & B & D). unfold cat in *. cbn [map snd concat].
        rewrite utf8s_app, app_length. split; [|split; lia].
        rewrite <- A. unfold sub. rewrite skipn_app.
        replace (skipn (fst s - pos) (utf8s run)) with (@nil N) by (symmetry; apply skipn_all2; lia).
        cbn [app]. f_equal; [lia|]. f_equal. lia. }
      destruct b; cbn [map snd]; [|exact M]. constructor; [|exact M]. cbn [fst snd].
      unfold cat. cbn [map snd concat]. rewrite utf8s_app, app_length. split; [|split; lia].
      unfold sub. rewrite Nat.sub_diag. cbn [skipn]. apply firstn_app_exact. lia.
  Qed.
  Lemma removelast_app_last {A} (l : list A) : l = [] \/ exists x, l = removelast l ++ [x].
  Proof.
    destruct l as [|a l]; [left; reflexivity|right]. exists (last (a :: l) a).
    apply app_removelast_last. discriminate.
  Qed.
  Lemma doc_span_words d ws sp : doc_words (word_char u) d ws -> doc_spans (word_char u) d sp ->
    Forall2 (fun w s => sub (fst s) (snd s) d = w /\ (snd s <= length d)%nat) ws sp.
  Proof.
    intros [(rs & T & ->)|(NT & ->)] [(rs' & T' & ->)|(NT' & ->)].
    - assert (rs' = rs) as ->.
      { destruct T as [S1 E1], T' as [S2 E2]. apply utf8s_inj; auto. congruence. }
      eapply Forall2_impl; [|exact (spans_sub (runs (word_char u) (removelast rs)) 0)].
      intros w s (A & B & D). rewrite runs_cat in A, D. rewrite !Nat.sub_0_r in A.
      destruct T as [_ E]. destruct (removelast_app_last rs) as [Z|[x Z]].
      + subst rs. cbn [removelast] in *. unfold utf8s in D at 1. cbn in D.
        rewrite E. split; [exact A|]. lia.
      + rewrite Z, utf8s_app in E. rewrite E, app_length. split; [|lia].
        rewrite <- A. unfold sub. rewrite skipn_app, firstn_app, skipn_length.
        replace (snd s - fst s - (length (utf8s (removelast rs)) - fst s))%nat with O by lia.
        cbn [firstn]. rewrite app_nil_r. reflexivity.
    - exfalso. exact (NT' _ T).
    - exfalso. exact (NT _ T').
    - constructor.
  Qed.

  Lemma blot_space_ok c k m n : cfg_ok c k m n -> N.of_nat n < 65536 -> blot_space c = N.of_nat n * 65536.
  Proof.
    intros C Hn. unfold blot_space. rewrite (co_shards _ _ _ _ C).
    rewrite Z.mod_small by lia. replace (Z.to_N (Z.of_nat n)) with (N.of_nat n) by lia.
    unfold u32. rewrite (N.mod_small (N.of_nat n)) by lia. apply N.mod_small. lia.
  Qed.
  Lemma nth_combine {A B} (l1 : list A) : forall (l2 : list B) i a b,
    nth_error l1 i = Some a -> nth_error l2 i = Some b -> nth_error (combine l1 l2) i = Some (a, b).
  Proof.
    induction l1 as [|x l1 IH]; intros [|y l2] [|i] a b E1 E2; cbn in *; try discriminate.
    - congruence.
    - eauto.
  Qed.
  Lemma nth_some {A} (l : list A) i : (i < length l)%nat -> exists a, nth_error l i = Some a.
  Proof. intros L. destruct (nth_error l i) eqn:E; eauto. apply nth_error_None in E. lia. Qed.
  Lemma firstn_S_middle {A} (l1 : list A) x l2 : firstn (S (length l1)) (l1 ++ x :: l2) = l1 ++ [x].
  Proof.
    rewrite firstn_app. replace (S (length l1) - length l1)%nat with 1%nat by lia.
    rewrite firstn_all2 by lia. reflexivity.
  Qed.

  Section Find.
    Context (c : config) (k m n : nat).
    Hypothesis C : cfg_ok c k m n.
    Hypothesis Hn : N.of_nat n < 65536.

    (** The range reported at word [i]: from the start of the word k*m before it to its end. *)
    Definition at_range (off : N) (sp : list (nat * nat)) (i : nat) (s e : N) : Prop :=
      exists a b, nth_error sp (i - k * m) = Some a /\ nth_error sp i = Some b /\
        s = u32 (off + N.of_nat (fst a)) /\ e = u32 (off + N.of_nat (snd b)).

    Lemma end_pos off w sp : fits w sp -> add32 (u32 (off + N.of_nat (fst sp))) (u32 (nlen w)) = u32 (off + N.of_nat (snd sp)).
    Proof.
      unfold fits. intros ->. unfold add32, u32, nlen. rewrite <- N.add_mod by lia. f_equal. lia.
    Qed.

    Lemma find_blot_loop_spec off q w2 : forall s2 w1 s1 b,
      length w1 = length s1 -> Forall2 fits (w1 ++ w2) (s1 ++ s2) -> blotter_inv u k m w1 b ->
      (forall j, (j < length w1)%nat -> ~ carries H k m n (w1 ++ w2) q j) ->
      (exists i s e, carries H k m n (w1 ++ w2) q i /\ (forall j, (j < i)%nat -> ~ carries H k m n (w1 ++ w2) q j) /\
         at_range off (s1 ++ s2) i s e /\
         find_blot_loop u c q (map (tok_of off) (combine (w1 ++ w2) (s1 ++ s2))) b (Z.of_nat (length w1))
           (map (tok_of off) (combine w2 s2)) = Ok (s, e)) \/
      ((forall j, ~ carries H k m n (w1 ++ w2) q j) /\
         find_blot_loop u c q (map (tok_of off) (combine (w1 ++ w2) (s1 ++ s2))) b (Z.of_nat (length w1))
           (map (tok_of off) (combine w2 s2)) = Err EOther).
    Proof.
      induction w2 as [|w w2 IH]; intros s2 w1 s1 b L F I NC.
      - right. rewrite app_nil_r in *. split; [|reflexivity].
        intros j Cj. apply (NC j); [|exact Cj]. destruct Cj as [[_ Hj] _]. exact Hj.
      - assert (LF := Forall2_len _ _ _ F). rewrite !app_length in LF. cbn [length] in LF.
        destruct s2 as [|sp s2]; [cbn [length] in LF; lia|].
        cbn [combine map find_blot_loop]. change (t_lit (tok_of off (w, sp))) with w.
        destruct (blotter_step u k m w1 b w I) as (b1 & E & I1). rewrite E. cbn [bind].
        rewrite (co_seqlen _ _ _ _ C), (blot_space_ok _ _ _ _ C Hn).
        assert (A1 : w1 ++ w :: w2 = (w1 ++ [w]) ++ w2) by (rewrite <- app_assoc; reflexivity).
        assert (A2 : s1 ++ sp :: s2 = (s1 ++ [sp]) ++ s2) by (rewrite <- app_assoc; reflexivity).
        assert (NEXT : ~ carries H k m n (w1 ++ w :: w2) q (length w1) ->
          let R := find_blot_loop u c q (map (tok_of off) (combine (w1 ++ w :: w2) (s1 ++ sp :: s2))) b1
                     (Z.of_nat (length w1) + 1) (map (tok_of off) (combine w2 s2)) in
          (exists i s e, carries H k m n (w1 ++ w :: w2) q i /\ (forall j, (j < i)%nat -> ~ carries H k m n (w1 ++ w :: w2) q j) /\
             at_range off (s1 ++ sp :: s2) i s e /\ R = Ok (s, e)) \/
          ((forall j, ~ carries H k m n (w1 ++ w :: w2) q j) /\ R = Err EOther)).
        { intros NW. cbv zeta. rewrite A1, A2 in *.
          replace (Z.of_nat (length w1) + 1)%Z with (Z.of_nat (length (w1 ++ [w]))) by (rewrite app_length; cbn [length]; lia).
          apply IH; [rewrite !app_length; cbn [length]; lia|exact F|exact I1|].
          intros j Hj. rewrite app_length in Hj. cbn [length] in Hj.
          destruct (Nat.eq_dec j (length w1)) as [->|Nj]; [exact NW|apply NC; lia]. }
        cbv zeta in NEXT.
        destruct (Z.ltb_spec (Z.of_nat (length w1)) (Z.of_nat (k * m))) as [Lt|Ge].
        + apply NEXT. intros [[B _] _]. lia.
        + destruct (N.eqb_spec (N.of_nat n * 65536) 0) as [Z|_]; [pose proof (co_n _ _ _ _ C); lia|].
          destruct (N.eqb_spec (blot_of H k m (w1 ++ [w]) mod (N.of_nat n * 65536)) q) as [Eq|Ne]; cbn [negb].
          * left. exists (length w1), (u32 (off + N.of_nat (fst (nth (length w1 - k * m) (s1 ++ sp :: s2) (0, 0)%nat)))), (u32 (off + N.of_nat (snd sp))).
            split; [split; [rewrite app_length; cbn [length]; lia|rewrite firstn_S_middle; exact Eq]|].
            split; [exact NC|].
            assert (La : (length w1 - k * m < length (s1 ++ sp :: s2))%nat) by (rewrite app_length; cbn [length]; lia).
            split.
            -- exists (nth (length w1 - k * m) (s1 ++ sp :: s2) (0,0)%nat), sp.
               split; [apply nth_error_nth'; exact La|]. split; [|auto].
               rewrite nth_error_app2 by lia. rewrite L, Nat.sub_diag. reflexivity.
            -- replace (Z.to_nat (Z.of_nat (length w1) - Z.of_nat (k * m))) with (length w1 - k * m)%nat by lia.
               rewrite nth_error_map.
               destruct (nth_some (w1 ++ w :: w2) (length w1 - k * m)) as [x Ex]; [rewrite app_length; cbn [length]; lia|].
               rewrite (nth_combine _ _ _ x (nth (length w1 - k * m) (s1 ++ sp :: s2) (0,0)%nat) Ex (nth_error_nth' _ _ La)).
               cbn [option_map]. unfold tok_of. cbn [t_pos t_lit fst snd]. f_equal. f_equal.
               apply end_pos. apply (Forall2_nth _ _ _ (length w1) w sp F).
               ++ rewrite nth_error_app2 by lia. rewrite Nat.sub_diag. reflexivity.
               ++ rewrite nth_error_app2 by lia. rewrite L, Nat.sub_diag. reflexivity.
          * apply NEXT. intros [_ E1]. rewrite firstn_S_middle in E1. exact (Ne E1).
    Qed.

    Theorem find_blot_spec d q ws sp :
      doc_words (word_char u) (d_dat d) ws -> doc_spans (word_char u) (d_dat d) sp ->
      (exists i s e, carries H k m n ws q i /\ (forall j, (j < i)%nat -> ~ carries H k m n ws q j) /\
         at_range (d_start d) sp i s e /\ find_blot u c q d = Ok (s, e)) \/
      ((forall j, ~ carries H k m n ws q j) /\ find_blot u c q d = Err EOther).
    Proof.
      intros W S. unfold find_blot. rewrite (idx_tokenize_ok c k m n) by exact C. cbn [bind].
      destruct (idx_blotter_ok _ _ _ _ C) as (b & E & I). rewrite E. cbn [bind].
      destruct (doc_toks _ (d_start d) _ _ W S) as [T F]. rewrite T.
      apply (find_blot_loop_spec (d_start d) q ws sp [] [] b); auto.
      cbn [length]. lia.
    Qed.

    Lemma eq_bytes_spec a : forall b, eq_bytes a b = true <-> a = b.
    Proof.
      induction a as [|x a IH]; intros [|y b]; cbn [eq_bytes]; try (split; congruence).
      rewrite Bool.andb_true_iff, N.eqb_eq, IH. split; [intros [-> ->]; reflexivity|intros E; inv E; auto].
    Qed.
    Lemma tget_tset k0 v r x : tget x (tset k0 v r) = if k0 =? x then Some v else tget x r.
    Proof. reflexivity. Qed.

    (** What is found at word i for blot b. *)
    Definition found (mm : tmap) (dat : bytes) (off : N) (ws : list bytes) (sp : list (nat * nat)) (b : N) (txt : bytes) (i : nat) : Prop :=
      carries H k m n ws b i /\ tget b mm = Some txt /\
      exists s e, at_range off sp i s e /\ slice dat s e = Ok txt.

    Lemma find_blots_loop_spec mm dat off w2 : forall s2 w1 s1 b res,
      length w1 = length s1 -> Forall2 fits (w1 ++ w2) (s1 ++ s2) -> blotter_inv u k m w1 b ->
      (forall b t, tget b res = Some t -> tget b mm = Some t) ->
      let R := find_blots_loop u c mm dat (map (tok_of off) (combine (w1 ++ w2) (s1 ++ s2))) b (Z.of_nat (length w1))
           (map (tok_of off) (combine w2 s2)) res in
      (R = Panic /\ exists i b s e t, carries H k m n (w1 ++ w2) b i /\ tget b mm = Some t /\
          at_range off (s1 ++ s2) i s e /\ slice dat s e = Panic) \/
      (exists res', R = Ok res' /\
         forall b txt, tget b res' = Some txt <->
           tget b res = Some txt \/ exists i, (length w1 <= i)%nat /\ found mm dat off (w1 ++ w2) (s1 ++ s2) b txt i).
    Proof.
      induction w2 as [|w w2 IH]; intros s2 w1 s1 b res L F I SM; cbv zeta.
      - right. exists res. rewrite app_nil_r in *. split; [reflexivity|]. intros b0 txt. split; [auto|].
        intros [A|(i & Li & ((_ & Hi) & _) & _)]; [exact A|lia].
      - assert (LF := Forall2_len _ _ _ F). rewrite !app_length in LF. cbn [length] in LF.
        destruct s2 as [|sp s2]; [cbn [length] in LF; lia|].
        cbn [combine map find_blots_loop]. change (t_lit (tok_of off (w, sp))) with w.
        destruct (blotter_step u k m w1 b w I) as (b1 & E & I1). rewrite E. cbn [bind].
        rewrite (co_seqlen _ _ _ _ C), (blot_space_ok _ _ _ _ C Hn).
        assert (A1 : w1 ++ w :: w2 = (w1 ++ [w]) ++ w2) by (rewrite <- app_assoc; reflexivity).
        assert (A2 : s1 ++ sp :: s2 = (s1 ++ [sp]) ++ s2) by (rewrite <- app_assoc; reflexivity).
        assert (NEXT : forall res1,
          (forall b0 t, tget b0 res1 = Some t -> tget b0 mm = Some t) ->
          (forall b0 txt, tget b0 res1 = Some txt <->
             tget b0 res = Some txt \/ found mm dat off (w1 ++ w :: w2) (s1 ++ sp :: s2) b0 txt (length w1)) ->
          let R := find_blots_loop u c mm dat (map (tok_of off) (combine (w1 ++ w :: w2) (s1 ++ sp :: s2))) b1
                     (Z.of_nat (length w1) + 1) (map (tok_of off) (combine w2 s2)) res1 in
          (R = Panic /\ exists i b s e t, carries H k m n (w1 ++ w :: w2) b i /\ tget b mm = Some t /\
              at_range off (s1 ++ sp :: s2) i s e /\ slice dat s e = Panic) \/
          (exists res', R = Ok res' /\
             forall b txt, tget b res' = Some txt <->
               tget b res = Some txt \/ exists i, (length w1 <= i)%nat /\ found mm dat off (w1 ++ w :: w2) (s1 ++ sp :: s2) b txt i)).
        { intros res1 SM1 V. cbv zeta. rewrite A1, A2 in *.
          replace (Z.of_nat (length w1) + 1)%Z with (Z.of_nat (length (w1 ++ [w]))) by (rewrite app_length; cbn [length]; lia).
          destruct (IH s2 (w1 ++ [w]) (s1 ++ [sp]) b1 res1) as [P|(res' & ER & V')];
            [rewrite !app_length; cbn [length]; lia|exact F|exact I1|exact SM1|left; exact P|].
          right. exists res'. split; [exact ER|]. intros b0 txt. rewrite V', V. rewrite app_length. cbn [length]. split.
          - intros [[A|A]|(i & Hi & A)]; [auto|right; exists (length w1); auto|right; exists i; split; [lia|exact A]].
          - intros [A|(i & Hi & A)]; [auto|].
            destruct (Nat.eq_dec i (length w1)) as [->|Ni]; [auto|]. right. exists i. split; [lia|exact A]. }
        cbv zeta in NEXT.
        assert (SKIP : (forall b0 txt, ~ found mm dat off (w1 ++ w :: w2) (s1 ++ sp :: s2) b0 txt (length w1)) ->
           forall b0 txt, tget b0 res = Some txt <->
             tget b0 res = Some txt \/ found mm dat off (w1 ++ w :: w2) (s1 ++ sp :: s2) b0 txt (length w1)).
        { intros NF b0 txt. split; [auto|]. intros [A|A]; [exact A|destruct (NF _ _ A)]. }
        destruct (Z.ltb_spec (Z.of_nat (length w1)) (Z.of_nat (k * m))) as [Lt|Ge].
        + apply NEXT; [exact SM|]. apply SKIP. intros b0 txt (((B & _) & _) & _). lia.
        + destruct (N.eqb_spec (N.of_nat n * 65536) 0) as [Z|_]; [pose proof (co_n _ _ _ _ C); lia|].
          set (q := blot_of H k m (w1 ++ [w]) mod (N.of_nat n * 65536)).
          assert (Cq : carries H k m n (w1 ++ w :: w2) q (length w1)).
          { split; [rewrite app_length; cbn [length]; lia|rewrite firstn_S_middle; reflexivity]. }
          assert (Ce : forall b0, carries H k m n (w1 ++ w :: w2) b0 (length w1) -> b0 = q).
          { intros b0 (_ & Eb). rewrite firstn_S_middle in Eb. symmetry. exact Eb. }
          destruct (tget q mm) as [want|] eqn:Et.
          * assert (La : (length w1 - k * m < length (s1 ++ sp :: s2))%nat) by (rewrite app_length; cbn [length]; lia).
            set (a := nth (length w1 - k * m) (s1 ++ sp :: s2) (0, 0)%nat).
            assert (Ea := nth_error_nth' (s1 ++ sp :: s2) (0,0)%nat La : nth_error _ _ = Some a).
            assert (Esp : nth_error (s1 ++ sp :: s2) (length w1) = Some sp).
            { rewrite nth_error_app2 by lia. rewrite L, Nat.sub_diag. reflexivity. }
            assert (AR : at_range off (s1 ++ sp :: s2) (length w1) (u32 (off + N.of_nat (fst a))) (u32 (off + N.of_nat (snd sp)))).
            { exists a, sp. auto. }
            assert (AU : forall s e, at_range off (s1 ++ sp :: s2) (length w1) s e ->
                      s = u32 (off + N.of_nat (fst a)) /\ e = u32 (off + N.of_nat (snd sp))).
            { intros s e (x & y & X & Y & -> & ->). rewrite Ea in X. rewrite Esp in Y. inv X. inv Y. auto. }
            replace (Z.to_nat (Z.of_nat (length w1) - Z.of_nat (k * m))) with (length w1 - k * m)%nat by lia.
            rewrite nth_error_map.
            destruct (nth_some (w1 ++ w :: w2) (length w1 - k * m)) as [x Ex]; [rewrite app_length; cbn [length]; lia|].
            rewrite (nth_combine _ _ _ x a Ex Ea). cbn [option_map].
            change (t_pos (tok_of off (x, a))) with (u32 (off + N.of_nat (fst a))).
            change (t_pos (tok_of off (w, sp))) with (u32 (off + N.of_nat (fst sp))).
            rewrite end_pos; cycle 1.
            { apply (Forall2_nth _ _ _ (length w1) w sp F); [|exact Esp].
              rewrite nth_error_app2 by lia. rewrite Nat.sub_diag. reflexivity. }
            assert (SD : forall x y, slice dat x y = Panic \/ exists t, slice dat x y = Ok t).
            { intros x0 y0. unfold slice. destruct (_ && _); eauto. }
            destruct (SD (u32 (off + N.of_nat (fst a))) (u32 (off + N.of_nat (snd sp)))) as [ES|[txt ES]];
              rewrite ES; cbn [bind].
            -- left. split; [reflexivity|]. do 5 eexists. split; [exact Cq|]. split; [exact Et|]. split; [exact AR|exact ES].
            -- destruct (eq_bytes want txt) eqn:EB.
               ++ apply eq_bytes_spec in EB. subst want. apply NEXT.
                  ** intros b0 t. rewrite tget_tset. destruct (N.eqb_spec q b0) as [<-|_]; [|apply SM].
                     intros X. inv X. exact Et.
                  ** intros b0 t. rewrite tget_tset. destruct (N.eqb_spec q b0) as [<-|Nq].
                     { split.
                       - intros X. inv X. right. split; [exact Cq|]. split; [exact Et|]. do 2 eexists. split; [exact AR|exact ES].
                       - intros [X|(_ & X & _)]; [apply SM in X|]; congruence. }
                     { split; [auto|]. intros [X|(X & _)]; [exact X|]. apply Ce in X. congruence. }
               ++ apply NEXT; [exact SM|]. apply SKIP. intros b0 t (X & Y & s & e & AR' & SL).
                  apply Ce in X. subst b0. destruct (AU _ _ AR') as [-> ->].
                  assert (want = txt) by congruence. subst want. assert (eq_bytes txt txt = true) by (apply eq_bytes_spec; reflexivity). congruence.
          * apply NEXT; [exact SM|]. apply SKIP. intros b0 t (X & Y & _). apply Ce in X. subst b0. congruence.
    Qed.

    Theorem find_blots_spec mm d ws sp :
      doc_words (word_char u) (d_dat d) ws -> doc_spans (word_char u) (d_dat d) sp ->
      (find_blots u c mm d = Panic /\ exists i b s e t, carries H k m n ws b i /\ tget b mm = Some t /\
          at_range (d_start d) sp i s e /\ slice (d_dat d) s e = Panic) \/
      (exists res, find_blots u c mm d = Ok res /\
         forall b txt, tget b res = Some txt <-> exists i, found mm (d_dat d) (d_start d) ws sp b txt i).
    Proof.
      intros W S. unfold find_blots. rewrite (idx_tokenize_ok c k m n) by exact C. cbn [bind].
      destruct (idx_blotter_ok _ _ _ _ C) as (b & E & I). rewrite E. cbn [bind].
      destruct (doc_toks _ (d_start d) _ _ W S) as [T F]. rewrite T.
      destruct (find_blots_loop_spec mm (d_dat d) (d_start d) ws sp [] [] b []) as [P|(res & ER & V)]; auto.
      - intros ? ? X. discriminate.
      - right. exists res. split; [exact ER|]. intros b0 txt. rewrite V. cbn [app length]. split.
        + intros [X|(i & _ & X)]; [discriminate|eauto].
        + intros (i & X). right. exists i. split; [lia|exact X].
    Qed.
  End Find.
End Idx.
