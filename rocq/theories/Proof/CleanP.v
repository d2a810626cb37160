(** filepath.Clean and Join of any path. *)
From Verif Require Import Model.Base Model.Path Model.Walk Spec.Paths Spec.Tree Proof.Tactics Proof.PathP.
Local Open Scope N_scope.

(** Components innermost first, joined and reversed. *)
Fixpoint rj (l : list bytes) : bytes :=
  match l with [] => [] | c :: r => rev c ++ match r with [] => [] | _ => 47 :: rj r end end.
Definition proper (c : bytes) : Prop := c <> [] /\ ~ In 47 c /\ c <> [46] /\ c <> [46; 46].
Definition ups (u : nat) : list bytes := repeat [46; 46] u.

Lemma walk1_proper st c : proper c -> walk1 st c = c :: st.
Proof. intros (H1 & _ & H2 & H3). apply walk1_push; assumption. Qed.

Lemma rj_nil l : comps_ok l -> rj l = [] -> l = [].
Proof.
  intros H E. destruct l as [|c r]; [reflexivity|]. inv H. destruct H2 as [Hc _]. cbn [rj] in E.
  apply app_eq_nil in E. destruct E as [E _]. apply (f_equal (@rev N)) in E. rewrite rev_involutive in E. contradiction.
Qed.
Lemma rj_cons c l : comps_ok l -> rj (c :: l) = rev c ++ (if (length (rj l) =? 0)%nat then rj l else 47 :: rj l).
Proof.
  intros H. cbn [rj]. f_equal. destruct l as [|d l]; [reflexivity|].
  destruct (Nat.eqb_spec (length (rj (d :: l))) 0) as [E|E]; [|reflexivity].
  apply length_zero_iff_nil in E. apply rj_nil in E; [discriminate|exact H].
Qed.
Lemma rj_longer st l : comps_ok (st ++ l) -> st <> [] -> (length (rj l) < length (rj (st ++ l)))%nat.
Proof.
  induction st as [|c st IH]; intros H Hn; [congruence|]. inv H. destruct H2 as [Hc _].
  change ((c :: st) ++ l) with (c :: (st ++ l)).
  rewrite rj_cons by assumption. rewrite app_length, rev_length.
  assert (1 <= length c)%nat by (destruct c; [congruence|cbn; lia]).
  destruct st as [|d st].
  - cbn [app]. destruct (_ =? 0)%nat; cbn [length]; lia.
  - specialize (IH H3 ltac:(discriminate)).
    destruct (_ =? 0)%nat; cbn [length]; lia.
Qed.

Lemma pop_word dd w tail : (forall c, In c w -> c <> 47) -> (dd <= length tail)%nat ->
  clean_pop_to dd (w ++ 47 :: tail) = tail.
Proof.
  intros Hw Hd. induction w as [|c w IH]; cbn [app clean_pop_to].
  - unfold sep. rewrite N.eqb_refl, andb_false_r. reflexivity.
  - assert ((dd <? length (w ++ 47%N :: tail))%nat = true) as ->
      by (rewrite app_length; cbn [length]; apply Nat.ltb_lt; lia).
    assert (c =? sep = false) as -> by (apply N.eqb_neq; apply Hw; left; reflexivity).
    cbn [negb andb]. apply IH. intros x Hx. apply Hw. right. exact Hx.
Qed.
Lemma pop_all w : (forall c, In c w -> c <> 47) -> clean_pop_to 0 w = [].
Proof.
  induction w as [|c w IH]; intros Hw; [reflexivity|]. cbn [clean_pop_to].
  assert (c =? sep = false) as -> by (apply N.eqb_neq; apply Hw; left; reflexivity).
  cbn [negb]. rewrite andb_true_r. destruct w as [|c2 w]; [reflexivity|].
  cbn [length Nat.ltb Nat.leb]. apply IH. intros x Hx. apply Hw. right. exact Hx.
Qed.
Lemma pop_rj c st u : comps_ok ((c :: st) ++ ups u) ->
  clean_pop_to (length (rj (ups u))) (rj ((c :: st) ++ ups u)) = rj (st ++ ups u).
Proof.
  intros H. change ((c :: st) ++ ups u) with (c :: (st ++ ups u)) in *. inv H. destruct H2 as [Hc Hs].
  assert (forall x, In x (rev c) -> x <> 47) as Hx by (intros x Hx ->; apply in_rev in Hx; contradiction).
  cbn [rj]. destruct (st ++ ups u) as [|d l] eqn:E.
  - apply app_eq_nil in E. destruct E as [-> E]. rewrite E. cbn [rj length]. rewrite app_nil_r.
    apply pop_all. exact Hx.
  - apply pop_word; [exact Hx|]. rewrite <- E. rewrite <- E in H3.
    destruct st as [|e st]; [cbn [app]; lia|].
    pose proof (rj_longer (e :: st) (ups u) H3 ltac:(discriminate)). lia.
Qed.

Lemma ups_ok u : comps_ok (ups u).
Proof.
  apply Forall_forall. intros c Hc. apply repeat_spec in Hc. subst c. split; [discriminate|].
  intros [|[|[]]]; discriminate.
Qed.
Lemma proper_ok st : Forall proper st -> comps_ok st.
Proof. apply Forall_impl. intros c (H1 & H2 & _). split; assumption. Qed.

(** The directory reached from [S0] by the components. *)
Definition sem (S0 : list bytes) (l : list bytes) := fold_left walk1 (rev l) S0.
Lemma sem_cons S0 c l : sem S0 (c :: l) = walk1 (sem S0 l) c.
Proof. unfold sem. cbn [rev]. rewrite fold_left_app. reflexivity. Qed.

Lemma clean_rel_loop_spec fuel : forall s st u S0, (length s <= fuel)%nat -> Forall proper st ->
  exists l, clean_rel_loop fuel s (rj (st ++ ups u)) (length (rj (ups u))) = rj l /\ comps_ok l
    /\ sem S0 l = fold_left walk1 (pieces s) (sem S0 (st ++ ups u)).
Proof.
  induction fuel as [|k IH]; intros s st u S0 Hf Hst;
    (assert (comps_ok (st ++ ups u)) as Hok by (apply Forall_app; split; [apply proper_ok; assumption|apply ups_ok])).
  - destruct s; [|cbn [length] in Hf; lia]. exists (st ++ ups u). repeat split; assumption.
  - destruct s as [|c r]; [exists (st ++ ups u); repeat split; assumption|].
    cbn [clean_rel_loop length] in *. unfold sep at 1.
    destruct (N.eqb_spec c 47) as [->|Hc].
    + cbn [pieces]. rewrite N.eqb_refl. cbn [fold_left walk1]. apply IH; [lia|assumption].
    + destruct ((c =? dot) && at_end r) eqn:E1.
      { apply andb_prop in E1. destruct E1 as [E1 E2]. apply N.eqb_eq in E1. unfold dot in E1. subst c.
        change (46 :: r) with ([46] ++ r). rewrite (fold_walk_word [46] r) by (auto; intros [|[]]; congruence).
        apply IH; [lia|assumption]. }
      destruct ((c =? dot) && match r with c2 :: r2 => (c2 =? dot) && at_end r2 | [] => false end) eqn:E2.
      { apply andb_prop in E2. destruct E2 as [E2 E3]. apply N.eqb_eq in E2. unfold dot in E2. subst c.
        destruct r as [|c2 r2]; [discriminate|]. apply andb_prop in E3. destruct E3 as [E3 E4].
        apply N.eqb_eq in E3. unfold dot in E3. subst c2. cbn [skipn length] in *.
        change (46 :: 46 :: r2) with ([46; 46] ++ r2). rewrite (fold_walk_word [46; 46] r2) by (auto; intros [|[|[]]]; congruence).
        destruct st as [|d st].
        - cbn [app] in *. rewrite Nat.ltb_irrefl.
          destruct (IH r2 [] (S u) S0 ltac:(lia) ltac:(constructor)) as (l & E & Hl & Hs).
          exists l. split; [|split; [exact Hl|]].
          + rewrite <- E. cbn [app]. change (ups (S u)) with ([46; 46] :: ups u). rewrite rj_cons by apply ups_ok.
            assert ((if (0 <? length (rj (ups u)))%nat then sep :: rj (ups u) else rj (ups u))
              = (if (length (rj (ups u)) =? 0)%nat then rj (ups u) else 47 :: rj (ups u))) as ->.
            { destruct (Nat.ltb_spec 0 (length (rj (ups u)))); destruct (Nat.eqb_spec (length (rj (ups u))) 0); try lia; reflexivity. }
            reflexivity.
          + rewrite Hs. cbn [app]. change (ups (S u)) with ([46; 46] :: ups u). rewrite sem_cons. reflexivity.
        - pose proof (rj_longer (d :: st) (ups u) Hok ltac:(discriminate)) as L.
          assert ((length (rj (ups u)) <? length (rj ((d :: st) ++ ups u)))%nat = true) as -> by (apply Nat.ltb_lt; exact L).
          rewrite pop_rj by exact Hok. inv Hst.
          destruct (IH r2 st u S0 ltac:(lia) ltac:(assumption)) as (l & E & Hl & Hs).
          exists l. split; [exact E|split; [exact Hl|]]. rewrite Hs.
          change ((d :: st) ++ ups u) with (d :: (st ++ ups u)). rewrite sem_cons, (walk1_proper _ d) by assumption. reflexivity. }
      destruct (clean_copy_spec (c :: r) (if (length (rj (st ++ ups u)) =? 0)%nat then rj (st ++ ups u) else sep :: rj (st ++ ups u)))
        as (w & rest & E & Hw & He & Hcp).
      rewrite Hcp, E, fold_walk_word by assumption.
      assert (w <> []) as Hw0.
      { intros ->. cbn [app] in E. subst rest. cbn [at_end] in He. unfold sep in He.
        apply N.eqb_eq in He. contradiction. }
      assert (w <> [46]) as Hw1.
      { intros ->. cbn [app] in E. inv E. rewrite He in E1. discriminate. }
      assert (w <> [46; 46]) as Hw2.
      { intros ->. cbn [app] in E. inv E. rewrite He in E2. discriminate. }
      destruct (IH rest (w :: st) u S0) as (l & El & Hl & Hs).
      { apply (f_equal (@length N)) in E. rewrite app_length in E. cbn [length] in E.
        destruct w; [congruence|]. cbn [length] in E. lia. }
      { constructor; [repeat split|]; assumption. }
      exists l. split; [|split; [exact Hl|]].
      * rewrite <- El. change ((w :: st) ++ ups u) with (w :: (st ++ ups u)). rewrite rj_cons by exact Hok. reflexivity.
      * rewrite Hs. change ((w :: st) ++ ups u) with (w :: (st ++ ups u)). rewrite sem_cons. reflexivity.
Qed.

Lemma rj_join l : rev (rj l) = join_sep (rev l).
Proof.
  assert (forall a c, a <> [] -> join_sep (a ++ [c]) = join_sep a ++ 47 :: c) as A.
  { induction a as [|x a IH]; intros c Hn; [congruence|]. destruct a as [|y a]; [reflexivity|].
    change ((x :: y :: a) ++ [c]) with (x :: ((y :: a) ++ [c])).
    change (join_sep (x :: (y :: a) ++ [c])) with (x ++ sep :: join_sep ((y :: a) ++ [c])).
    rewrite IH by discriminate.
    change (join_sep (x :: y :: a)) with (x ++ sep :: join_sep (y :: a)). rewrite <- app_assoc. reflexivity. }
  induction l as [|c l IH]; [reflexivity|]. cbn [rj rev]. rewrite rev_app_distr, rev_involutive.
  destruct l as [|d l]; [reflexivity|]. rewrite A.
  - change (rev (47 :: rj (d :: l))) with (rev (rj (d :: l)) ++ [47]). rewrite IH, <- app_assoc. reflexivity.
  - intros E. apply (f_equal (@length bytes)) in E. rewrite rev_length in E. discriminate.
Qed.
Lemma pieces_join_sep cs : cs <> [] -> Forall (fun c => ~ In 47 c) cs -> pieces (join_sep cs) = cs.
Proof.
  induction cs as [|c cs IH]; intros Hn H; [congruence|]. inv H. destruct cs as [|d cs].
  - cbn [join_sep]. rewrite <- (app_nil_r c) at 1. rewrite pieces_word by auto. reflexivity.
  - change (join_sep (c :: d :: cs)) with (c ++ 47 :: join_sep (d :: cs)). rewrite pieces_join.
    rewrite IH by (discriminate || assumption).
    rewrite <- (app_nil_r c) at 1. rewrite pieces_word by auto. reflexivity.
Qed.

Lemma resolve_proper cs : Forall proper cs -> forall st, fold_left walk1 cs st = rev cs ++ st.
Proof.
  induction cs as [|c cs IH]; intros H st; [reflexivity|]. inv H. cbn [fold_left rev].
  rewrite walk1_proper, IH by assumption. rewrite <- app_assoc. reflexivity.
Qed.
Lemma walk_proper cs : forall st, Forall proper st -> Forall (fun w => ~ In 47 w) cs -> Forall proper (fold_left walk1 cs st).
Proof.
  induction cs as [|w cs IH]; intros st H1 H2; [exact H1|]. inv H2. cbn [fold_left]. apply IH; [|assumption].
  destruct (list_eq_dec N.eq_dec w []) as [->|N1]; [exact H1|].
  destruct (list_eq_dec N.eq_dec w [46]) as [->|N2]; [exact H1|].
  destruct (list_eq_dec N.eq_dec w [46; 46]) as [->|N3]; [cbn [walk1]; destruct H1; [constructor|assumption]|].
  rewrite walk1_push by assumption. constructor; [repeat split|]; assumption.
Qed.

Lemma clean_spec cwd path : path <> [] -> spec_abs cwd (clean path) = spec_abs cwd path.
Proof.
  intros Hn. destruct path as [|c r]; [congruence|]. unfold clean.
  destruct (is_abs (c :: r)) eqn:Ea.
  - cbn [is_abs] in Ea. apply N.eqb_eq in Ea. unfold sep in Ea. subst c. rewrite clean_rooted_spec, spec_abs_rooted.
    assert (Forall proper (resolve (pieces (47 :: r)))) as Hp.
    { unfold resolve. apply Forall_rev, walk_proper; [constructor|apply pieces_ok]. }
    revert Hp. generalize (resolve (pieces (47 :: r))). intros cs Hp.
    destruct cs as [|d cs]; [reflexivity|]. unfold show_abs.
    change (slashed (d :: cs)) with (47 :: d ++ slashed cs). rewrite spec_abs_rooted.
    change (47 :: d ++ slashed cs) with (slashed (d :: cs)). rewrite pieces_slashed by (apply proper_ok; assumption).
    unfold resolve. cbn [fold_left walk1]. change (walk1 [] []) with (@nil bytes).
    change (rev (fold_left walk1 (d :: cs) []) = d :: cs). rewrite resolve_proper by assumption.
    rewrite app_nil_r, rev_involutive. reflexivity.
  - rewrite (spec_abs_relative cwd (c :: r)) by exact Ea. unfold resolve. rewrite fold_left_app.
    destruct (clean_rel_loop_spec (length (c :: r)) (c :: r) [] 0 (fold_left walk1 (pieces cwd) []) ltac:(lia) ltac:(constructor))
      as (l & E & Hl & Hs). change (rj ([] ++ ups 0)) with (@nil N) in E. change (length (rj (ups 0))) with 0%nat in E.
    change (sem (fold_left walk1 (pieces cwd) []) ([] ++ ups 0)) with (fold_left walk1 (pieces cwd) []) in Hs.
    rewrite E, <- Hs. clear E Hs Ea.
    destruct l as [|d l].
    + cbn [rj]. rewrite spec_abs_relative by reflexivity. unfold resolve, sem. cbn [rev fold_left].
      rewrite fold_left_app. reflexivity.
    + assert (rj (d :: l) <> []) as Hj by (intros E; apply rj_nil in E; [discriminate|exact Hl]).
      destruct (rj (d :: l)) as [|x rr] eqn:Ej; [congruence|]. rewrite <- Ej, rj_join.
      assert (rev (d :: l) <> []) as Hr.
      { intros E. apply (f_equal (@length bytes)) in E. rewrite rev_length in E. discriminate. }
      assert (comps_ok (rev (d :: l))) as Ho by (apply Forall_rev; exact Hl).
      rewrite spec_abs_relative.
      * rewrite pieces_join_sep; [|exact Hr|].
        -- unfold resolve, sem. rewrite fold_left_app. reflexivity.
        -- revert Ho. apply Forall_impl. intros ? [_ ?]; assumption.
      * revert Ho Hr. generalize (rev (d :: l)). intros cs Ho Hr. destruct cs as [|e cs]; [congruence|].
        inv Ho. destruct H1 as [H1 H3]. destruct e as [|y e]; [congruence|].
        assert (y <> 47) by (intros ->; apply H3; left; reflexivity).
        destruct cs; cbn [join_sep app is_abs]; apply N.eqb_neq; assumption.
Qed.

Lemma spec_abs_snoc cwd p n : good_name n -> p <> [] -> spec_abs cwd (p ++ sep :: n) = spec_abs cwd p ++ [n].
Proof.
  intros (H1 & H2 & H3 & H4) Hp.
  assert (pieces n = [n]) as Pn.
  { rewrite <- (app_nil_r n) at 1. rewrite pieces_word by auto. reflexivity. }
  destruct (is_abs p) eqn:E.
  - destruct p as [|c r]; [discriminate|]. cbn [is_abs] in E. apply N.eqb_eq in E. unfold sep in E. subst c.
    cbn [app]. rewrite !spec_abs_rooted. change (47 :: r ++ sep :: n) with ((47 :: r) ++ 47 :: n).
    rewrite pieces_join, Pn. unfold resolve. rewrite fold_left_app. cbn [fold_left].
    rewrite walk1_push by assumption. reflexivity.
  - rewrite !spec_abs_relative; [|exact E|destruct p; [congruence|exact E]].
    change (p ++ sep :: n) with (p ++ 47 :: n). rewrite pieces_join, Pn. unfold resolve.
    rewrite app_assoc, fold_left_app. cbn [fold_left]. rewrite walk1_push by assumption. reflexivity.
Qed.
Lemma spec_abs_one cwd n : good_name n -> spec_abs cwd n = spec_abs cwd [] ++ [n].
Proof.
  intros (H1 & H2 & H3 & H4).
  assert (pieces n = [n]) as Pn.
  { rewrite <- (app_nil_r n) at 1. rewrite pieces_word by auto. reflexivity. }
  rewrite !spec_abs_relative; [|reflexivity|].
  - rewrite Pn. unfold resolve. rewrite !fold_left_app. cbn [fold_left pieces]. rewrite walk1_push by assumption. reflexivity.
  - destruct n as [|c n]; [reflexivity|]. cbn [is_abs]. apply N.eqb_neq. intros ->. apply H2. left. reflexivity.
Qed.

Lemma join_path_spec cwd p n : good_name n -> spec_abs cwd (join_path p n) = spec_abs cwd p ++ [n].
Proof.
  intros H. unfold join_path. destruct p as [|c p].
  - rewrite clean_spec by apply H. apply spec_abs_one. exact H.
  - rewrite clean_spec by discriminate. apply spec_abs_snoc; [exact H|discriminate].
Qed.
