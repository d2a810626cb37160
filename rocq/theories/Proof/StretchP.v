(** Stretches of text: from the start of one word to the end of another. Equal stretches
    have equal words. *)
From Verif Require Import Model.Base Model.Utf8 Model.Token.
From Verif Require Import Spec.Text Spec.Fingerprint.
From Verif Require Import Proof.Tactics Proof.Utf8P Proof.TokenP Proof.IndexP Proof.IndexP2 Proof.BlotsP Proof.CmdP.
Local Open Scope N_scope.

Section Unique.
  Variable cls : N -> bool.
  Definition proper (R : list (bool * list N)) : Prop :=
    alternating R /\ Forall (fun br => snd br <> [] /\ Forall (fun c => cls c = fst br) (snd br)) R.
  Lemma runs_block b run rest R : Forall (fun c => cls c = b) run -> run <> [] -> runs cls rest = R ->
    match R with (b', _) :: _ => b <> b' | [] => True end -> runs cls (run ++ rest) = (b, run) :: R.
  Proof.
    intros F. revert rest R. induction F as [|x run Hx F IH]; intros rest R Hne E Hd; [congruence|].
    cbn [app runs]. destruct run as [|y run].
    - cbn [app]. rewrite E, Hx. destruct R as [|[b' r'] R]; [reflexivity|].
      destruct (Bool.eqb b' b) eqn:Eb; [|reflexivity]. apply Bool.eqb_prop in Eb. congruence.
    - rewrite (IH rest R ltac:(discriminate) E Hd), Hx, Bool.eqb_reflx. reflexivity.
  Qed.
  Lemma runs_unique R : proper R -> runs cls (cat R) = R.
  Proof.
    intros [A F]. revert A. induction F as [|[b run] R [Hne Hc] F IH]; intros A; [reflexivity|].
    unfold cat. cbn [map snd concat]. apply (runs_block b run (concat (map snd R)) R Hc Hne).
    - apply IH. destruct R as [|[b' run'] R']; [exact I|]. exact (proj2 A).
    - destruct R as [|[b' run'] R']; [exact I|]. exact (proj1 A).
  Qed.
  Lemma proper_runs rs : proper (runs cls rs).
  Proof.
    split; [apply runs_alternating|]. pose proof (runs_nonempty cls rs) as A. pose proof (runs_class cls rs) as B.
    rewrite Forall_forall in *. auto.
  Qed.
  Lemma proper_app R1 R2 : proper (R1 ++ R2) -> proper R1 /\ proper R2.
  Proof.
    intros [A F]. apply Forall_app in F. destruct F as [F1 F2].
    assert (alternating R1 /\ alternating R2); [|unfold proper; tauto]. clear F1 F2.
    induction R1 as [|[b run] R1 IH]; [split; [exact I|exact A]|].
    destruct R1 as [|[b' run'] R1].
    - split; [exact I|]. destruct R2 as [|[b2 run2] R2]; [exact I|]. exact (proj2 A).
    - cbn [app] in A, IH. destruct A as [Hne A]. destruct (IH A) as [A1 A2]. split; [|exact A2]. split; [exact Hne|exact A1].
  Qed.
End Unique.

(** Word number [w] is a run with [w] words before it. *)
Lemma spans_index R : forall pos w s, nth_error (spans pos R) w = Some s ->
  exists j run, nth_error R j = Some (true, run) /\ length (filter fst (firstn j R)) = w /\
    fst s = (pos + size (firstn j R))%nat /\ snd s = (pos + size (firstn (S j) R))%nat.
Proof.
  induction R as [|[b run0] R IH]; intros pos w s E; [destruct w; discriminate|]. cbn [spans] in E. destruct b.
  - destruct w as [|w]; cbn [nth_error] in E.
    + injection E as <-. exists 0%nat, run0. cbn [nth_error firstn filter length fst snd]. rewrite size_cons. change (size []) with 0%nat.
      split; [reflexivity|]. split; [reflexivity|]. split; lia.
    + destruct (IH _ _ _ E) as (j & run & En & Ew & E1 & E2). exists (S j), run. cbn [nth_error].
      change (firstn (S (S j)) ((true, run0) :: R)) with ((true, run0) :: firstn (S j) R). cbn [firstn filter fst length] in *.
      rewrite !size_cons. change (match R with [] => [] | a :: l => a :: firstn j l end) with (firstn (S j) R) in *.
      split; [exact En|]. split; [lia|]. split; lia.
  - destruct (IH _ _ _ E) as (j & run & En & Ew & E1 & E2). exists (S j), run. cbn [nth_error].
    change (firstn (S (S j)) ((false, run0) :: R)) with ((false, run0) :: firstn (S j) R). cbn [firstn filter fst length] in *.
    rewrite !size_cons. change (match R with [] => [] | a :: l => a :: firstn j l end) with (firstn (S j) R) in *.
    split; [exact En|]. split; [lia|]. split; lia.
Qed.
Lemma firstn_S_nth {A} (l : list A) : forall j x, nth_error l j = Some x -> firstn (S j) l = firstn j l ++ [x].
Proof.
  induction l as [|a l IH]; intros [|j] x E; cbn [nth_error] in E; try discriminate.
  - injection E as ->. reflexivity.
  - cbn [firstn app]. rewrite <- (IH _ _ E). reflexivity.
Qed.
Lemma filter_firstn_le {A} (f : A -> bool) l : forall i j, (i <= j)%nat -> (length (filter f (firstn i l)) <= length (filter f (firstn j l)))%nat.
Proof.
  induction l as [|a l IH]; intros [|i] [|j] L; cbn [firstn filter length]; try lia.
  pose proof (IH i j ltac:(lia)). destruct (f a); cbn [length]; lia.
Qed.
Lemma skip_plus {A} a : forall b (l : list A), skipn (a + b) l = skipn b (skipn a l).
Proof. induction a as [|a IH]; intros b l; [reflexivity|]. destruct l; cbn [skipn Nat.add]; [symmetry; apply skipn_nil|apply IH]. Qed.
Lemma nth_skipn {A} a : forall (l : list A) j, nth_error (skipn a l) j = nth_error l (a + j).
Proof. induction a as [|a IH]; intros l j; [reflexivity|]. destruct l; cbn [skipn Nat.add nth_error]; [destruct j; reflexivity|apply IH]. Qed.
Lemma cat_app R1 R2 : cat (R1 ++ R2) = cat R1 ++ cat R2.
Proof. unfold cat. rewrite map_app, concat_app. reflexivity. Qed.

Section S.
  Variable u : unicode.
  Notation wc := (word_char u).

  Lemma stretch_words d ws sp i l a z : doc_words wc d ws -> doc_spans wc d sp ->
    nth_error sp i = Some a -> nth_error sp (i + l) = Some z ->
    exists rs, is_text (sub (fst a) (snd z) d) rs /\ words wc rs = sub i (i + S l) ws.
  Proof.
    intros W S Ea Ez. destruct S as [(rs & T & ->)|(_ & ->)]; [|destruct i; discriminate].
    destruct W as [(rs' & T' & ->)|(NT & _)]; [|exfalso; eapply NT; eauto].
    rewrite (text_same _ _ _ T T') in *. clear rs' T'. unfold word_spans in *.
    pose proof (runs_cat wc (removelast rs)) as RC. pose proof (proper_runs wc (removelast rs)) as PR. unfold words.
    set (R := runs wc (removelast rs)) in *.
    destruct (spans_index _ _ _ _ Ea) as (j & run & Ej & Ew & E1 & _). destruct (spans_index _ _ _ _ Ez) as (j' & run' & Ej' & Ew' & _ & E2).
    cbn [Nat.add] in E1, E2.
    assert (Lj : (j <= j')%nat).
    { destruct (Nat.le_gt_cases j j') as [|G]; [assumption|]. exfalso.
      pose proof (filter_firstn_le fst R (S j') j G) as X. rewrite (firstn_S_nth _ _ _ Ej'), filter_app, app_length, Ew, Ew' in X. cbn in X. lia. }
    set (B := firstn (S j' - j) (skipn j R)).
    assert (ER : R = firstn j R ++ B ++ skipn (S j') R).
    { rewrite <- (firstn_skipn j R) at 1. f_equal. rewrite <- (firstn_skipn (S j' - j) (skipn j R)) at 1. unfold B. f_equal.
      rewrite <- skip_plus. f_equal. lia. }
    assert (EB : firstn (S j') R = firstn j R ++ B).
    { unfold B. rewrite <- (firstn_skipn j (firstn (S j') R)). rewrite firstn_firstn, Nat.min_l by lia. f_equal. rewrite skipn_firstn_comm. reflexivity. }
    exists (cat B).
    assert (Td : exists x, rs = cat (firstn j R) ++ cat B ++ x).
    { destruct (removelast_app_last rs) as [->|[x Ex]].
      - exfalso. subst R. cbn [removelast runs] in Ej. destruct j; discriminate.
      - exists (cat (skipn (Datatypes.S j') R) ++ [x]). rewrite Ex at 1. rewrite <- RC, ER at 1. rewrite !cat_app, <- !app_assoc. reflexivity. }
    destruct Td as [x Td]. split.
    - split.
      + destruct T as [F _]. rewrite Td in F. apply Forall_app in F. destruct F as [_ F]. apply Forall_app in F. tauto.
      + destruct T as [_ ->]. rewrite E1, E2, EB. unfold size. rewrite Td, !cat_app, !utf8s_app, app_length. unfold sub.
        rewrite skipn_app_exact by reflexivity. apply firstn_app_exact. lia.
    - rewrite (runs_unique wc B).
      + rewrite ER. rewrite !filter_app, !map_app. unfold sub.
        assert (LA : length (map (fun br => utf8s (snd br)) (filter fst (firstn j R))) = i) by (rewrite map_length; exact Ew).
        rewrite skipn_app_exact by (symmetry; exact LA). rewrite firstn_app_exact; [reflexivity|].
        rewrite map_length. assert (X : length (filter fst (firstn (Datatypes.S j') R)) = Datatypes.S (i + l)).
        { rewrite (firstn_S_nth _ _ _ Ej'), filter_app, app_length, Ew'. cbn. lia. }
        rewrite EB, filter_app, app_length, Ew in X. lia.
      + rewrite ER in PR. apply proper_app in PR. destruct PR as [_ PR]. apply proper_app in PR. tauto.
  Qed.

  (** The blot at a word depends only on the stretch of words it ends. *)
  Lemma nth_error_firstn {A} (l : list A) : forall k j, (j < k)%nat -> nth_error (firstn k l) j = nth_error l j.
  Proof. induction l as [|a l IH]; intros [|k] [|j] L; cbn [firstn nth_error]; try lia; try reflexivity. apply IH. lia. Qed.
  Lemma nth_error_rev_firstn {A} (l : list A) i t : (i < length l)%nat -> (t <= i)%nat ->
    nth_error (rev (firstn (S i) l)) t = nth_error l (i - t).
  Proof.
    intros L Lt. assert (Ln : length (firstn (S i) l) = S i) by (rewrite firstn_length; lia).
    rewrite <- (nth_error_firstn l (S i)) by lia. generalize dependent (firstn (S i) l). intros x Ln.
    assert (exists d, nth_error x (i - t) = Some d) as [d Ed] by (apply nth_some; lia).
    rewrite Ed. assert (Ed' := nth_error_nth x (i - t) d Ed).
    destruct (nth_error (rev x) t) as [d'|] eqn:E'; [|apply nth_error_None in E'; rewrite rev_length in E'; lia].
    pose proof (nth_error_nth (rev x) t d E') as E''. rewrite rev_nth in E'' by lia.
    replace (length x - S t)%nat with (i - t)%nat in E'' by lia. congruence.
  Qed.
  Lemma blot_of_stretch Hf k m ws ws' i i' : (0 < k)%nat -> (i + k * m < length ws)%nat -> (i' + k * m < length ws')%nat ->
    sub i (i + S (k * m)) ws = sub i' (i' + S (k * m)) ws' ->
    blot_of Hf k m (firstn (S (i + k * m)) ws) = blot_of Hf k m (firstn (S (i' + k * m)) ws').
  Proof.
    intros Hk L L' E. unfold blot_of, recent. f_equal. f_equal. apply map_ext_in. intros t Ht. apply in_seq in Ht.
    assert (Lt : (t * k <= k * m)%nat) by nia.
    rewrite !nth_error_rev_firstn by lia.
    assert (G : forall (l : list bytes) j, (j + k * m < length l)%nat -> nth_error l (j + k * m - t * k) = nth_error (sub j (j + S (k * m)) l) (k * m - t * k)).
    { intros l j Lj. unfold sub. rewrite nth_error_firstn by lia. rewrite nth_skipn. f_equal. lia. }
    rewrite !G by assumption. rewrite E. reflexivity.
  Qed.
End S.
