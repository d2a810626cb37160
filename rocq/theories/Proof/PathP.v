(** filepath.Clean and Abs give the resolved components. *)
From Verif Require Import Model.Base Model.Path Spec.Paths Proof.Tactics.
Local Open Scope N_scope.

Definition comp_ok (c : bytes) : Prop := c <> [] /\ ~ In 47 c.
Definition comps_ok (cs : list bytes) : Prop := Forall comp_ok cs.

Lemma split_sep_pieces s : split_sep s = pieces s.
Proof. induction s as [|c r IH]; [reflexivity|]. cbn [split_sep pieces]. unfold sep. rewrite IH. reflexivity. Qed.

Lemma pieces_word w rest : ~ In 47 w -> at_end rest = true ->
  pieces (w ++ rest) = w :: match rest with [] => [] | _ :: r => pieces r end.
Proof.
  intros Hw He. induction w as [|c w IH].
  - destruct rest as [|c r]; [reflexivity|]. cbn [at_end] in He. unfold sep in He.
    cbn [app pieces]. rewrite He. reflexivity.
  - cbn [app pieces]. assert (c =? 47 = false) as -> by (apply N.eqb_neq; intros ->; apply Hw; left; reflexivity).
    rewrite IH by (intros H; apply Hw; right; exact H). reflexivity.
Qed.

Lemma fold_walk_word w rest st : ~ In 47 w -> at_end rest = true ->
  fold_left walk1 (pieces (w ++ rest)) st = fold_left walk1 (pieces rest) (walk1 st w).
Proof.
  intros Hw He. rewrite pieces_word by assumption. cbn [fold_left].
  destruct rest as [|c r]; [reflexivity|].
  cbn [at_end] in He. unfold sep in He. cbn [pieces]. rewrite He. reflexivity.
Qed.

(** Reversed strings of a stack of components. *)
Fixpoint rsl (st : list bytes) : bytes :=
  match st with [] => [] | c :: r => rev c ++ 47 :: rsl r end.
Definition rshow (st : list bytes) : bytes := match st with [] => [47] | _ => rsl st end.

Lemma rsl_length st : comps_ok st -> st <> [] -> (2 <= length (rsl st))%nat.
Proof.
  intros H Hn. destruct st as [|c r]; [congruence|]. inv H. destruct H2 as [H2 _].
  cbn [rsl]. rewrite app_length, rev_length. cbn [length]. destruct c; [congruence|]. cbn [length]. lia.
Qed.

Lemma clean_pop_nosep w tail : (forall c, In c w -> c <> 47) -> (2 <= length tail)%nat ->
  clean_pop (w ++ 47 :: tail) = tail.
Proof.
  intros Hw Ht. induction w as [|c w IH]; cbn [app clean_pop].
  - unfold sep. rewrite N.eqb_refl, andb_false_r. reflexivity.
  - assert ((1 <? length (w ++ 47%N :: tail))%nat = true) as ->
      by (rewrite app_length; cbn [length]; apply Nat.ltb_lt; lia).
    assert (c =? sep = false) as -> by (apply N.eqb_neq; apply Hw; left; reflexivity).
    cbn [negb andb]. apply IH. intros x Hx. apply Hw. right. exact Hx.
Qed.

Lemma clean_pop_root w : w <> [] -> (forall c, In c w -> c <> 47) -> clean_pop (w ++ [47]) = [47].
Proof.
  induction w as [|c w IH]; intros Hn Hw; [congruence|]. cbn [app clean_pop].
  assert (c =? sep = false) as -> by (apply N.eqb_neq; apply Hw; left; reflexivity).
  cbn [negb]. rewrite andb_true_r. destruct w as [|c2 w].
  - reflexivity.
  - assert ((1 <? length ((c2 :: w) ++ [47%N]))%nat = true) as ->
      by (rewrite app_length; cbn [length]; apply Nat.ltb_lt; lia).
    apply IH; [discriminate|]. intros x Hx. apply Hw. right. exact Hx.
Qed.

Lemma clean_pop_rshow st : comps_ok st ->
  (if (1 <? length (rshow st))%nat then clean_pop (rshow st) else rshow st) = rshow (tl st).
Proof.
  intros H. destruct st as [|c st]; [reflexivity|].
  pose proof (rsl_length (c :: st) H ltac:(discriminate)) as L.
  cbn [rshow tl]. destruct (Nat.ltb_spec 1 (length (rsl (c :: st)))); [|lia].
  inv H. destruct H3 as [Hc1 Hc2]. cbn [rsl].
  assert (forall x, In x (rev c) -> x <> 47) as Hx
    by (intros x Hx ->; apply in_rev in Hx; contradiction).
  destruct st as [|c2 st].
  - cbn [rsl rshow]. apply clean_pop_root; [|exact Hx].
    intros E. apply (f_equal (@length N)) in E. rewrite rev_length in E. destruct c; [congruence|discriminate].
  - rewrite clean_pop_nosep; [reflexivity|exact Hx|]. apply rsl_length; [assumption|discriminate].
Qed.

Lemma clean_copy_spec s : forall ro, exists w rest,
  s = w ++ rest /\ ~ In 47 w /\ at_end rest = true /\ clean_copy s ro = (rest, rev w ++ ro).
Proof.
  induction s as [|c r IH]; intros ro.
  - exists [], []. repeat split; auto.
  - cbn [clean_copy]. unfold sep at 1. destruct (N.eqb_spec c 47) as [->|Hc].
    + exists [], (47 :: r). repeat split; auto.
    + destruct (IH (c :: ro)) as (w & rest & E & Hw & He & Hcp).
      exists (c :: w), rest. repeat split; auto.
      * rewrite E. reflexivity.
      * intros [|]; congruence || contradiction.
      * rewrite Hcp. cbn [rev]. rewrite <- app_assoc. reflexivity.
Qed.

Lemma walk1_push st w : w <> [] -> w <> [46] -> w <> [46; 46] -> walk1 st w = w :: st.
Proof.
  intros H1 H2 H3.
  assert (forall (A : Type) (a b c : A) (f : A),
    (match w with [] => a | [46] => b | [46; 46] => c | _ => f end) = f) as M.
  { intros. destruct w as [|x w1]; [congruence|].
    destruct (N.eq_dec x 46) as [->|Hx].
    - destruct w1 as [|y w2]; [congruence|].
      destruct (N.eq_dec y 46) as [->|Hy].
      + destruct w2; [congruence|reflexivity].
      + destruct y as [|p]; [reflexivity|]. do 6 (try (destruct p; try reflexivity)). congruence.
    - destruct x as [|p]; [reflexivity|]. do 6 (try (destruct p; try reflexivity)); congruence. }
  unfold walk1. apply M.
Qed.

Lemma walk1_ok st w : comps_ok st -> ~ In 47 w -> comps_ok (walk1 st w).
Proof.
  intros Hst Hw. destruct (list_eq_dec N.eq_dec w []) as [->|H1]; [exact Hst|].
  destruct (list_eq_dec N.eq_dec w [46]) as [->|H2]; [exact Hst|].
  destruct (list_eq_dec N.eq_dec w [46; 46]) as [->|H3].
  - cbn [walk1]. destruct Hst; [constructor|assumption].
  - rewrite walk1_push by assumption. constructor; [split|]; assumption.
Qed.

Lemma pieces_ok s : Forall (fun w => ~ In 47 w) (pieces s).
Proof.
  induction s as [|c r IH]; cbn [pieces].
  - constructor; [intros []|constructor].
  - destruct (N.eqb_spec c 47) as [->|Hc].
    + constructor; [intros []|exact IH].
    + destruct (pieces r) as [|h t]; [repeat constructor; intros [|[]]; congruence|].
      inv IH. constructor; [|assumption]. intros [|]; congruence || contradiction.
Qed.

Lemma fold_walk_ok cs : forall st, comps_ok st -> Forall (fun w => ~ In 47 w) cs -> comps_ok (fold_left walk1 cs st).
Proof. induction cs as [|w cs IH]; intros st H1 H2; [exact H1|]. inv H2. cbn [fold_left]. apply IH; [apply walk1_ok|]; assumption. Qed.

Lemma clean_loop_spec fuel : forall s st, (length s <= fuel)%nat -> comps_ok st ->
  clean_loop fuel s (rshow st) = rshow (fold_left walk1 (pieces s) st).
Proof.
  induction fuel as [|k IH]; intros s st Hf Hst.
  - destruct s; [reflexivity|cbn [length] in Hf; lia].
  - destruct s as [|c r]; [reflexivity|]. cbn [clean_loop length] in *. unfold sep at 1.
    destruct (N.eqb_spec c 47) as [->|Hc].
    + cbn [pieces]. rewrite N.eqb_refl. cbn [fold_left walk1]. apply IH; [lia|assumption].
    + destruct ((c =? dot) && at_end r) eqn:E1.
      { apply andb_prop in E1. destruct E1 as [E1 E2]. apply N.eqb_eq in E1. unfold dot in E1. subst c.
        rewrite IH by (lia || assumption).
        change (46 :: r) with ([46] ++ r). rewrite (fold_walk_word [46] r st) by (auto; intros [|[]]; congruence). reflexivity. }
      destruct ((c =? dot) && match r with c2 :: r2 => (c2 =? dot) && at_end r2 | [] => false end) eqn:E2.
      { apply andb_prop in E2. destruct E2 as [E2 E3]. apply N.eqb_eq in E2. unfold dot in E2. subst c.
        destruct r as [|c2 r2]; [discriminate|]. apply andb_prop in E3. destruct E3 as [E3 E4].
        apply N.eqb_eq in E3. unfold dot in E3. subst c2.
        rewrite clean_pop_rshow by assumption. cbn [skipn length] in *.
        rewrite IH; [|lia|destruct Hst; [constructor|assumption]].
        change (46 :: 46 :: r2) with ([46; 46] ++ r2). rewrite (fold_walk_word [46; 46] r2 st) by (auto; intros [|[|[]]]; congruence). reflexivity. }
      destruct (clean_copy_spec (c :: r) (if (length (rshow st) =? 1)%nat then rshow st else sep :: rshow st))
        as (w & rest & E & Hw & He & Hcp).
      rewrite Hcp, E, fold_walk_word by assumption.
      assert (w <> []) as Hw0.
      { intros ->. cbn [app] in E. subst rest. cbn [at_end] in He. unfold sep in He.
        apply N.eqb_eq in He. contradiction. }
      assert (w <> [46]) as Hw1.
      { intros ->. cbn [app] in E. inv E. rewrite He in E1. discriminate. }
      assert (w <> [46; 46]) as Hw2.
      { intros ->. cbn [app] in E. inv E. rewrite He in E2. discriminate. }
      rewrite walk1_push by assumption. cbv beta iota zeta.
      transitivity (clean_loop k rest (rshow (w :: st))).
      { f_equal. cbn [rshow rsl]. destruct st as [|c0 st]; [reflexivity|].
        pose proof (rsl_length (c0 :: st) Hst ltac:(discriminate)). cbn [rshow].
        destruct (Nat.eqb_spec (length (rsl (c0 :: st))) 1); [lia|]. reflexivity. }
      apply IH; [|constructor; [split|]; assumption].
      apply (f_equal (@length N)) in E. rewrite app_length in E. cbn [length] in E.
      destruct w; [congruence|]. cbn [length] in E. lia.
Qed.

Lemma rsl_slashed st : rev (rsl st) = slashed (rev st).
Proof.
  assert (forall a b, slashed (a ++ b) = slashed a ++ slashed b) as A.
  { induction a as [|c a IHa]; intros b; [reflexivity|]. cbn [app slashed]. rewrite IHa, app_assoc. reflexivity. }
  induction st as [|c st IH]; [reflexivity|]. cbn [rsl rev]. rewrite rev_app_distr, rev_involutive.
  cbn [rev]. rewrite A, IH. cbn [slashed]. rewrite app_nil_r, <- app_assoc. reflexivity.
Qed.
Lemma rshow_show st : rev (rshow st) = show_abs (rev st).
Proof.
  destruct st as [|c st]; [reflexivity|]. cbn [rshow]. rewrite rsl_slashed.
  unfold show_abs. destruct (rev (c :: st)) eqn:E; [|reflexivity].
  apply (f_equal (@length bytes)) in E. rewrite rev_length in E. discriminate.
Qed.

Lemma clean_rooted_spec r : clean_rooted (47 :: r) = show_abs (resolve (pieces (47 :: r))).
Proof.
  unfold clean_rooted. cbn [skipn length]. change [sep] with (rshow []).
  rewrite clean_loop_spec by (try constructor; lia).
  rewrite rshow_show. unfold resolve. reflexivity.
Qed.

Lemma pieces_join a b : pieces (a ++ 47 :: b) = pieces a ++ pieces b.
Proof.
  induction a as [|c a IH]; [reflexivity|]. cbn [app pieces]. rewrite IH.
  destruct (c =? 47); [reflexivity|].
  destruct (pieces a) as [|h t] eqn:E; [|reflexivity].
  destruct a; cbn [pieces] in E; [discriminate|]. destruct (_ =? 47) in E; [discriminate|].
  destruct (pieces a); discriminate.
Qed.

Lemma spec_abs_rooted cwd r : spec_abs cwd (47 :: r) = resolve (pieces (47 :: r)).
Proof. reflexivity. Qed.
Lemma spec_abs_relative cwd p : is_abs p = false -> spec_abs cwd p = resolve (pieces cwd ++ pieces p).
Proof.
  intros H. unfold spec_abs. destruct p as [|c p]; [reflexivity|]. cbn [is_abs] in H.
  apply N.eqb_neq in H. unfold sep in H.
  destruct c as [|q]; [reflexivity|]. do 6 (try (destruct q; try reflexivity)). congruence.
Qed.

Lemma path_abs_spec cwd path : rooted cwd -> path_abs cwd path = show_abs (spec_abs cwd path).
Proof.
  intros [w ->]. unfold path_abs. destruct (is_abs path) eqn:E.
  - destruct path as [|c r]; [discriminate|]. cbn [is_abs] in E. apply N.eqb_eq in E. unfold sep in E. subst c.
    rewrite clean_rooted_spec, spec_abs_rooted. reflexivity.
  - rewrite spec_abs_relative by assumption. cbn [app]. rewrite clean_rooted_spec.
    change (47 :: w ++ sep :: path) with ((47 :: w) ++ 47 :: path). rewrite pieces_join. reflexivity.
Qed.

Lemma resolve_ok cs : Forall (fun w => ~ In 47 w) cs -> comps_ok (resolve cs).
Proof. intros H. unfold resolve, comps_ok. apply Forall_rev. apply fold_walk_ok; [constructor|assumption]. Qed.
Lemma spec_abs_ok cwd path : comps_ok (spec_abs cwd path).
Proof.
  destruct (is_abs path) eqn:E.
  - destruct path as [|c r]; [discriminate|]. cbn [is_abs] in E. apply N.eqb_eq in E. unfold sep in E. subst c.
    rewrite spec_abs_rooted. apply resolve_ok, pieces_ok.
  - rewrite spec_abs_relative by assumption. apply resolve_ok, Forall_app. split; apply pieces_ok.
Qed.

(** Cleaning is idempotent on what it produces: the components of the result. *)
Lemma pieces_slashed cs : comps_ok cs -> pieces (slashed cs) = [] :: cs.
Proof.
  induction cs as [|c cs IH]; intros H; [reflexivity|]. inv H. cbn [slashed pieces]. rewrite N.eqb_refl.
  f_equal. rewrite pieces_word.
  - f_equal. destruct cs as [|c2 cs]; [reflexivity|]. cbn [slashed]. specialize (IH H3).
    cbn [slashed pieces] in IH. rewrite N.eqb_refl in IH. inv IH. rewrite H0. reflexivity.
  - apply H2.
  - destruct cs; [reflexivity|]. reflexivity.
Qed.

Lemma fold_walk_length cs : forall st, (length (fold_left walk1 cs st) <= length st + length cs)%nat.
Proof.
  induction cs as [|w cs IH]; intros st; cbn [fold_left length]; [lia|].
  specialize (IH (walk1 st w)).
  assert (length (walk1 st w) <= S (length st))%nat; [|lia].
  destruct (list_eq_dec N.eq_dec w []) as [->|H1]; [cbn; lia|].
  destruct (list_eq_dec N.eq_dec w [46]) as [->|H2]; [cbn; lia|].
  destruct (list_eq_dec N.eq_dec w [46; 46]) as [->|H3]; [cbn [walk1]; destruct st; cbn; lia|].
  rewrite walk1_push by assumption. cbn [length]. lia.
Qed.
Lemma pieces_length s : (length (pieces s) <= S (length s))%nat.
Proof.
  induction s as [|c r IH]; [cbn; lia|]. cbn [pieces length]. destruct (c =? 47); cbn [length]; [lia|].
  destruct (pieces r); cbn [length] in *; lia.
Qed.
Lemma spec_abs_length cwd path : (length (spec_abs cwd path) <= length cwd + length path + 2)%nat.
Proof.
  pose proof (pieces_length cwd). pose proof (pieces_length path).
  destruct (is_abs path) eqn:E.
  - destruct path as [|c r]; [discriminate|]. cbn [is_abs] in E. apply N.eqb_eq in E. unfold sep in E. subst c.
    rewrite spec_abs_rooted. unfold resolve. rewrite rev_length.
    pose proof (fold_walk_length (pieces (47 :: r)) []). cbn [length] in *. lia.
  - rewrite spec_abs_relative by assumption. unfold resolve. rewrite rev_length.
    pose proof (fold_walk_length (pieces cwd ++ pieces path) []). rewrite app_length in *. cbn [length] in *. lia.
Qed.
(** and so are the component lengths *)
Lemma pieces_each s : Forall (fun w => (length w <= length s)%nat) (pieces s).
Proof.
  induction s as [|c r IH]; cbn [pieces length].
  - repeat constructor.
  - destruct (c =? 47).
    + constructor; [cbn; lia|]. revert IH. apply Forall_impl. intros; lia.
    + destruct (pieces r) as [|h t]; [constructor; [cbn; lia|constructor]|]. inv IH.
      constructor; [cbn [length]; lia|]. revert H2. apply Forall_impl. intros; lia.
Qed.
Lemma fold_walk_each n cs : forall st, Forall (fun w => (length w <= n)%nat) st ->
  Forall (fun w => (length w <= n)%nat) cs -> Forall (fun w => (length w <= n)%nat) (fold_left walk1 cs st).
Proof.
  induction cs as [|w cs IH]; intros st H1 H2; [exact H1|]. inv H2. cbn [fold_left]. apply IH; [|assumption].
  destruct (list_eq_dec N.eq_dec w []) as [->|N1]; [exact H1|].
  destruct (list_eq_dec N.eq_dec w [46]) as [->|N2]; [exact H1|].
  destruct (list_eq_dec N.eq_dec w [46; 46]) as [->|N3]; [cbn [walk1]; destruct H1; [constructor|assumption]|].
  rewrite walk1_push by assumption. constructor; assumption.
Qed.
Lemma spec_abs_each cwd path : Forall (fun w => (length w <= length cwd + length path)%nat) (spec_abs cwd path).
Proof.
  assert (forall s n, (length s <= n)%nat -> Forall (fun w => (length w <= n)%nat) (pieces s)) as P.
  { intros s n H. eapply Forall_impl; [|apply pieces_each]. cbn beta. intros; lia. }
  destruct (is_abs path) eqn:E.
  - destruct path as [|c r]; [discriminate|]. cbn [is_abs] in E. apply N.eqb_eq in E. unfold sep in E. subst c.
    rewrite spec_abs_rooted. unfold resolve. apply Forall_rev, fold_walk_each; [constructor|]. apply P. lia.
  - rewrite spec_abs_relative by assumption. unfold resolve. apply Forall_rev, fold_walk_each; [constructor|].
    apply Forall_app. split; apply P; lia.
Qed.
