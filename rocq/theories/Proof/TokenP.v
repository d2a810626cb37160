(** Tokenize gives the runs of the text without its last character. *)
From Verif Require Import Model.Base Model.Utf8 Model.Token Spec.Text Proof.Tactics Proof.Utf8P.
Local Open Scope N_scope.

(** * Runs *)
Section Runs.
  Variable cls : N -> bool.
  Definition cat (R : list (bool * list N)) : list N := concat (map snd R).

  Lemma runs_cat rs : cat (runs cls rs) = rs.
  Proof.
    induction rs as [|r rs IH]; [reflexivity|]. cbn [runs].
    destruct (runs cls rs) as [|[b run] rest].
    - unfold cat in *. cbn in *. rewrite <- IH. reflexivity.
    - destruct (Bool.eqb b (cls r)); unfold cat in *; cbn in *; rewrite <- IH; reflexivity.
  Qed.
  Lemma runs_nonempty rs : Forall (fun br => snd br <> []) (runs cls rs).
  Proof.
    induction rs as [|r rs IH]; [constructor|]. cbn [runs].
    destruct (runs cls rs) as [|[b run] rest].
    - constructor; [discriminate|constructor].
    - inv IH. destruct (Bool.eqb b (cls r)); constructor; auto; try discriminate; constructor; auto.
  Qed.
  Lemma runs_class rs : Forall (fun br => Forall (fun c => cls c = fst br) (snd br)) (runs cls rs).
  Proof.
    induction rs as [|r rs IH]; [constructor|]. cbn [runs].
    destruct (runs cls rs) as [|[b run] rest].
    - constructor; [|constructor]. cbn. auto.
    - inv IH. cbn in *. destruct (Bool.eqb b (cls r)) eqn:E.
      + apply Bool.eqb_prop in E. constructor; [|assumption]. cbn. constructor; auto.
      + constructor; [cbn; auto|]. constructor; auto.
  Qed.
  (** neighbours have different classes *)
  Fixpoint alternating (R : list (bool * list N)) : Prop :=
    match R with
    | (a, _) :: (((b, _) :: _) as t) => a <> b /\ alternating t
    | _ => True
    end.
  Lemma runs_alternating rs : alternating (runs cls rs).
  Proof.
    induction rs as [|r rs IH]; [exact I|]. cbn [runs].
    destruct (runs cls rs) as [|[b run] rest]; [exact I|].
    destruct (Bool.eqb b (cls r)) eqn:E.
    - exact IH.
    - cbn [alternating]. split; [|exact IH]. intros Eq. rewrite Eq, Bool.eqb_reflx in E. discriminate.
  Qed.

  Lemma runs_single r : runs cls [r] = [(cls r, [r])].
  Proof. reflexivity. Qed.
  (** Adding a character at the end. *)
  Lemma runs_snoc pre : forall R b run r, runs cls pre = R ++ [(b, run)] ->
    runs cls (pre ++ [r]) = if Bool.eqb b (cls r) then R ++ [(b, run ++ [r])] else R ++ [(b, run); (cls r, [r])].
  Proof.
    induction pre as [|p pre IH]; intros R b run r E.
    - destruct R; discriminate.
    - cbn [app runs] in *. destruct (runs cls pre) as [|[b1 run1] rest] eqn:E1.
      + assert (pre = []) as -> by (pose proof (runs_cat pre) as C; rewrite E1 in C; symmetry; exact C).
        cbn [app runs]. destruct R as [|? [|]]; inv E.
        destruct (Bool.eqb (cls p) (cls r)) eqn:E2.
        * rewrite (Bool.eqb_prop _ _ E2), Bool.eqb_reflx. reflexivity.
        * assert (Bool.eqb (cls r) (cls p) = false) as ->; [|reflexivity].
          destruct (cls r), (cls p); auto.
      + destruct (Bool.eqb b1 (cls p)) eqn:E2.
        * destruct R as [|x R].
          -- inv E. specialize (IH [] b run1 r eq_refl). rewrite IH. cbn [app].
             destruct (Bool.eqb b (cls r)); rewrite E2; reflexivity.
          -- inv E. specialize (IH ((b1, run1) :: R) b run r). cbn [app] in IH. rewrite IH by reflexivity.
             destruct (Bool.eqb b (cls r)); cbn [app]; rewrite E2; reflexivity.
        * destruct R as [|x R]; [inv E|].
          inv E. rewrite (IH R b run r) by congruence.
          destruct R as [|[b2 run2] R].
          -- inv H1. destruct (Bool.eqb b (cls r)); cbn [app]; rewrite E2; reflexivity.
          -- inv H1. destruct (Bool.eqb b (cls r)); cbn [app]; rewrite E2; reflexivity.
  Qed.
End Runs.

(** * The loop *)
Section Tok.
  Variable u : unicode.
  Local Notation word_char := (Text.word_char u).
  Lemma word_char_model r : is_letter u r || is_digit u r = word_char r.
  Proof.
    unfold is_letter, is_digit, Text.word_char, in_range. destruct (r <? 128); [|reflexivity].
    destruct ((48 <=? r) && (r <=? 57)), ((65 <=? r) && (r <=? 90)), ((97 <=? r) && (r <=? 122)); reflexivity.
  Qed.

  (** The tokens of a list of runs, starting at byte [pos]. *)
  Fixpoint toks_of (offset : N) (pos : nat) (R : list (bool * list N)) : list token :=
    match R with
    | [] => []
    | (b, run) :: t =>
        MkTok (if b then Word else Other) (utf8s run) (u32 (offset + N.of_nat pos))
        :: toks_of offset (pos + length (utf8s run)) t
    end.
  Lemma toks_of_app offset R1 : forall pos R2,
    toks_of offset pos (R1 ++ R2) = toks_of offset pos R1 ++ toks_of offset (pos + length (utf8s (cat R1))) R2.
  Proof.
    induction R1 as [|[b run] R1 IH]; intros pos R2.
    - cbn [app toks_of cat map concat]. f_equal. cbn. lia.
    - cbn [app toks_of]. rewrite IH. unfold cat. cbn [map snd concat]. rewrite utf8s_app, app_length.
      fold (cat R1). f_equal. f_equal. f_equal. lia.
  Qed.

  Lemma add32_pos offset j : add32 offset (u32 (N.of_nat j)) = u32 (offset + N.of_nat j).
  Proof. unfold add32, u32. rewrite N.add_mod_idemp_r by lia. reflexivity. Qed.

  Lemma sub_utf8 a run rest :
    sub (length (utf8s a)) (length (utf8s (a ++ run))) (utf8s (a ++ run ++ rest)) = utf8s run.
  Proof.
    unfold sub. rewrite !utf8s_app, app_length.
    rewrite skipn_app_exact by reflexivity. apply firstn_app_exact. lia.
  Qed.

  Definition opt_run (b : bool) (run : list N) : list (bool * list N) :=
    match run with [] => [] | _ => [(b, run)] end.

  Lemma tok_loop_spec offset rest : forall pre r R run,
    runs word_char pre = R ++ opt_run (word_char r) run ->
    runs word_char (pre ++ [r]) = R ++ [(word_char r, run ++ [r])] ->
    let d := utf8s (pre ++ r :: rest) in
    exists R' run' pre' r',
      pre ++ r :: rest = pre' ++ [r'] /\
      runs word_char pre' = R' ++ opt_run (word_char r') run' /\
      tok_loop u d offset (positions (length (utf8s (pre ++ [r]))) rest)
        (toks_of offset 0 R) (word_char r) (length (utf8s (cat R))) (length (utf8s pre)) =
      (toks_of offset 0 R', word_char r', length (utf8s (cat R')), length (utf8s pre')).
  Proof.
    induction rest as [|r2 rest IH]; intros pre r R run I1 I2 d.
    - exists R, run, pre, r. auto.
    - cbn [positions tok_loop]. rewrite word_char_model.
      assert (pre ++ r :: r2 :: rest = (pre ++ [r]) ++ r2 :: rest) as Ed by (rewrite <- app_assoc; reflexivity).
      assert (cat R ++ run ++ [r] = pre ++ [r]) as Ec.
      { rewrite <- (runs_cat word_char (pre ++ [r])), I2. unfold cat. rewrite map_app, concat_app. cbn [map snd concat].
        rewrite app_nil_r. reflexivity. }
      assert ((length (utf8s (cat R)) <? length (utf8s (pre ++ [r])))%nat = true) as Hlt.
      { apply Nat.ltb_lt. rewrite <- Ec. rewrite (utf8s_app (cat R)), app_length.
        pose proof (utf8s_length (run ++ [r])) as L. rewrite app_length in L. cbn [length] in L. lia. }
      pose proof (runs_snoc word_char (pre ++ [r]) R (word_char r) (run ++ [r]) r2 I2) as I3.
      assert (sub (length (utf8s (cat R))) (length (utf8s (pre ++ [r]))) d = utf8s (run ++ [r])) as Hsub.
      { unfold d. rewrite Ed, <- Ec. rewrite <- (app_assoc (cat R)). apply sub_utf8. }
      assert (length (utf8s (cat (R ++ [(word_char r, run ++ [r])]))) = length (utf8s (pre ++ [r]))) as Hcat.
      { unfold cat. rewrite map_app, concat_app. cbn [map snd concat]. rewrite app_nil_r. fold (cat R). rewrite Ec. reflexivity. }
      assert (length (utf8s (pre ++ [r])) + length (utf8 r2) = length (utf8s ((pre ++ [r]) ++ [r2])))%nat as Hpos.
      { rewrite (utf8s_app (pre ++ [r]) [r2]), app_length. cbn [utf8s map concat]. rewrite app_nil_r. reflexivity. }
      (* emit: the run is complete *)
      assert (forall tg, word_char r2 <> word_char r -> tg = (if word_char r then Word else Other) ->
        exists R' run' pre' r', pre ++ r :: r2 :: rest = pre' ++ [r'] /\
          runs word_char pre' = R' ++ opt_run (word_char r') run' /\
          tok_loop u d offset (positions (length (utf8s (pre ++ [r])) + length (utf8 r2)) rest)
            (toks_of offset 0 R ++ [MkTok tg (sub (length (utf8s (cat R))) (length (utf8s (pre ++ [r]))) d)
              (add32 offset (u32 (N.of_nat (length (utf8s (cat R))))))]) (word_char r2)
            (length (utf8s (pre ++ [r]))) (length (utf8s (pre ++ [r]))) =
          (toks_of offset 0 R', word_char r', length (utf8s (cat R')), length (utf8s pre'))) as Emit.
      { intros tg Hc ->. rewrite Hsub, add32_pos, Hpos.
        assert (toks_of offset 0 R ++ [MkTok (if word_char r then Word else Other) (utf8s (run ++ [r]))
            (u32 (offset + N.of_nat (length (utf8s (cat R)))))] = toks_of offset 0 (R ++ [(word_char r, run ++ [r])])) as ->.
        { rewrite toks_of_app. reflexivity. }
        assert (runs word_char (pre ++ [r]) = (R ++ [(word_char r, run ++ [r])]) ++ opt_run (word_char r2) []) as J1.
        { cbn [opt_run]. rewrite app_nil_r. exact I2. }
        assert (runs word_char ((pre ++ [r]) ++ [r2]) = (R ++ [(word_char r, run ++ [r])]) ++ [(word_char r2, [] ++ [r2])]) as J2.
        { rewrite I3. destruct (Bool.eqb (word_char r) (word_char r2)) eqn:E.
          - apply Bool.eqb_prop in E. congruence.
          - rewrite <- app_assoc. reflexivity. }
        pose proof (IH (pre ++ [r]) r2 (R ++ [(word_char r, run ++ [r])]) [] J1 J2) as Q.
        cbv zeta in Q. rewrite Hcat, <- Ed in Q. exact Q. }
      assert (word_char r2 = word_char r ->
        exists R' run' pre' r', pre ++ r :: r2 :: rest = pre' ++ [r'] /\
          runs word_char pre' = R' ++ opt_run (word_char r') run' /\
          tok_loop u d offset (positions (length (utf8s (pre ++ [r])) + length (utf8 r2)) rest)
            (toks_of offset 0 R) (word_char r2) (length (utf8s (cat R))) (length (utf8s (pre ++ [r]))) =
          (toks_of offset 0 R', word_char r', length (utf8s (cat R')), length (utf8s pre'))) as Keep.
      { intros Hc. rewrite Hpos. unfold d. rewrite Ed. apply (IH (pre ++ [r]) r2 R (run ++ [r])).
        - rewrite I2, Hc. destruct (run ++ [r]) eqn:E; [destruct run; discriminate|]. reflexivity.
        - rewrite I3, Hc, Bool.eqb_reflx. reflexivity. }
      rewrite Hlt. destruct (word_char r2) eqn:E2, (word_char r) eqn:E1; cbn [negb andb].
      + apply Keep; reflexivity.
      + apply (Emit Other); [discriminate|reflexivity].
      + apply (Emit Word); [discriminate|reflexivity].
      + apply Keep; reflexivity.
  Qed.

  Theorem tokenize_text d rs offset : is_text d rs ->
    tokenize u d offset = toks_of offset 0 (runs word_char (removelast rs)).
  Proof.
    intros T. unfold tokenize.
    assert (utf8_valid d = true) as -> by (apply utf8_valid_spec; eauto).
    cbn [negb]. rewrite (range_string_text d rs T). destruct T as [Hs ->].
    destruct rs as [|r rest]; [reflexivity|].
    destruct (tok_loop_spec offset rest [] r [] []) as (R & run & pre & r' & E1 & E2 & E3).
    { reflexivity. }
    { reflexivity. }
    cbn [app] in E1.
    assert (tok_loop u (utf8s (r :: rest)) offset (positions 0 (r :: rest)) [] false 0 0 =
      tok_loop u (utf8s (r :: rest)) offset (positions (length (utf8 r)) rest) [] (word_char r) 0 0) as ->.
    { cbn [positions tok_loop]. rewrite word_char_model. change (0 <? 0)%nat with false. rewrite !andb_false_r.
      rewrite Nat.add_0_l. destruct (word_char r); reflexivity. }
    cbn [app] in E3. unfold utf8s at 2 in E3. cbn [map concat] in E3. rewrite app_nil_r in E3.
    cbn [toks_of cat map concat] in E3. change (length (utf8s [])) with 0%nat in E3. rewrite E3.
    rewrite E1, removelast_last, E2.
    assert (pre = cat R ++ run) as Ep.
    { rewrite <- (runs_cat word_char pre), E2. unfold cat. rewrite map_app, concat_app. f_equal.
      destruct run; [reflexivity|]. cbn. rewrite app_nil_r. reflexivity. }
    rewrite Ep, utf8s_app, app_length. destruct run as [|c run].
    - cbn [opt_run]. rewrite !app_nil_r. change (utf8s []) with (@nil N). cbn [length].
      destruct (Nat.ltb_spec (length (utf8s (cat R))) (length (utf8s (cat R)) + 0)); [lia|auto].
    - pose proof (utf8s_length (c :: run)) as L. cbn [length] in L.
      destruct (Nat.ltb_spec (length (utf8s (cat R))) (length (utf8s (cat R)) + length (utf8s (c :: run)))); [|lia].
      cbn [opt_run]. rewrite toks_of_app. cbn [toks_of]. rewrite add32_pos. rewrite Nat.add_0_l.
      do 3 f_equal.
      rewrite <- app_length, <- utf8s_app.
      replace (((cat R ++ c :: run) ++ [r'])) with (cat R ++ (c :: run) ++ [r']) by apply app_assoc.
      apply sub_utf8.
  Qed.

  Lemma tokenize_invalid d offset : (forall rs, ~ is_text d rs) -> tokenize u d offset = [].
  Proof.
    intros H. unfold tokenize. destruct (utf8_valid d) eqn:E; [|reflexivity].
    apply utf8_valid_spec in E. destruct E as [rs Hrs]. exfalso. exact (H rs Hrs).
  Qed.

  (** * What the tokens are *)
  Lemma toks_of_lits offset R : forall pos, concat (map t_lit (toks_of offset pos R)) = utf8s (cat R).
  Proof.
    induction R as [|[b run] R IH]; intros pos; [reflexivity|]. cbn [toks_of map t_lit concat]. rewrite IH.
    unfold cat. cbn [map snd concat]. rewrite utf8s_app. reflexivity.
  Qed.
  Lemma toks_of_words offset R : forall pos,
    map t_lit (filter is_word (toks_of offset pos R)) = map (fun br => utf8s (snd br)) (filter fst R).
  Proof.
    induction R as [|[b run] R IH]; intros pos; [reflexivity|]. cbn [toks_of filter fst].
    destruct b; unfold is_word at 1; cbn [t_tag map t_lit snd]; rewrite IH; reflexivity.
  Qed.
  Lemma tokenize_words d rs offset : is_text d rs ->
    map t_lit (filter is_word (tokenize u d offset)) = words word_char (removelast rs).
  Proof. intros T. rewrite (tokenize_text d rs offset T). apply toks_of_words. Qed.
End Tok.
