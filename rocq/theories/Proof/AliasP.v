From Coq Require Import String.
From Verif Require Import Model.Base Model.Index Model.Alias Spec.Paths Spec.History Spec.Snapshots Spec.Str Proof.Tactics.
Local Open Scope N_scope.
Local Open Scope list_scope.

Lemma heap_other b i x h b' : b' <> b -> nth_error (heap_set b i x h) b' = nth_error h b'.
Proof. intros Ne. unfold heap_set. destruct (nth_error h b); [|reflexivity]. apply nth_error_upd_ne. auto. Qed.

(** [all] are the snapshots of the whole program. *)
Record good (all : list (option bytes)) (s : astate) : Prop := {
  g_rest : exists before, all = before ++ snapshots (al_heap s) (al_todo s) /\ N.of_nat (List.length before) + 1 = al_next s;
  g_un : untouched (al_todo s);
  g_readers : forall k did b got, nth_error (al_readers s) k = Some (RRead did b got) ->
    (forall i x, ~ In (CSet b i x) (al_todo s)) /\ 1 <= did /\
    nth_error all (N.to_nat (did - 1)) = Some (nth_error (al_heap s) b) /\
    (forall d, nth_error (al_heap s) b = Some d -> got = firstn (List.length got) d);
  g_seen : forall did d, In (did, d) (al_seen s) -> 1 <= did /\ nth_error all (N.to_nat (did - 1)) = Some (Some d) }.

Lemma nth_upd_cases {A} k (x : A) l j y : nth_error (upd k x l) j = Some y -> (j = k /\ y = x) \/ (j <> k /\ nth_error l j = Some y).
Proof.
  intros H. destruct (Nat.eq_dec j k) as [->|Ne].
  - left. split; [reflexivity|]. destruct (Nat.lt_ge_cases k (List.length l)).
    + rewrite nth_error_upd_eq in H by assumption. congruence.
    + assert (nth_error (upd k x l) k = None) by (apply nth_error_None; rewrite upd_length; lia). congruence.
  - right. rewrite nth_error_upd_ne in H by auto. auto.
Qed.

Lemma firstn_snoc {A} n (l : list A) x : nth_error l n = Some x -> firstn (S n) l = firstn n l ++ [x].
Proof. revert n. induction l; intros [|n] H; try discriminate; cbn in *; [congruence|]. f_equal. apply IHl, H. Qed.

Lemma good_step all s s' : good all s -> astep s s' -> good all s'.
Proof.
  intros G St. destruct St as [h b i x t nx rs l|h b t nx rs l k Hk|h t nx rs l k did b got d x Hk Hb Hx|h t nx rs l k did b got d Hk Hb Hl];
    destruct G as [Gr Gu Gq Gs]; cbn [al_heap al_todo al_next al_readers al_seen] in *; constructor; cbn [al_heap al_todo al_next al_readers al_seen].
  - exact Gr.
  - exact Gu.
  - intros k did b' got Hk. destruct (Gq k did b' got Hk) as (A & A' & B & C).
    assert (Ne : b' <> b) by (intros ->; exact (A i x (or_introl eq_refl))).
    rewrite heap_other by exact Ne. repeat split; auto. intros i' x' Hi. exact (A i' x' (or_intror Hi)).
  - exact Gs.
  - destruct Gr as (bf & E & L). exists (bf ++ [nth_error h b]). rewrite <- app_assoc. split; [exact E|]. rewrite app_length. cbn. lia.
  - exact (proj2 Gu).
  - intros k' did b' got Hk'. apply nth_upd_cases in Hk' as [(-> & E)|(_ & Hk')].
    + inversion E; subst. destruct Gr as (bf & Ea & L). split; [exact (proj1 Gu)|]. split; [lia|]. split; [|reflexivity].
      rewrite Ea. rewrite nth_error_app2 by lia. replace (N.to_nat (nx - 1) - length bf)%nat with 0%nat by lia. reflexivity.
    + destruct (Gq k' did b' got Hk') as (A & A' & B & C). repeat split; auto. intros i' x' Hi. exact (A i' x' (or_intror Hi)).
  - exact Gs.
  - exact Gr.
  - exact Gu.
  - intros k' did' b' got' Hk'. apply nth_upd_cases in Hk' as [(-> & E)|(_ & Hk')]; [|exact (Gq _ _ _ _ Hk')].
    inversion E; subst. destruct (Gq k did b got Hk) as (A & A' & B & C). repeat split; auto.
    intros d' Hd'. assert (d' = d) by congruence; subst d'. rewrite app_length, Nat.add_comm. cbn [length Nat.add].
    rewrite (firstn_snoc _ _ _ Hx). f_equal. exact (C d Hb).
  - exact Gs.
  - exact Gr.
  - exact Gu.
  - intros k' did' b' got' Hk'. apply nth_upd_cases in Hk' as [(-> & E)|(_ & Hk')]; [discriminate|exact (Gq _ _ _ _ Hk')].
  - intros did' d' Hi. apply in_app_iff in Hi as [Hi|[E|[]]]; [exact (Gs _ _ Hi)|]. inversion E; subst.
    destruct (Gq k did' b d' Hk) as (A & A' & B & C). split; [exact A'|]. rewrite B, Hb. do 2 f_equal.
    rewrite (C d Hb), Hl, firstn_all. reflexivity.
Qed.

Lemma good_start h prog n : untouched prog -> good (snapshots h prog) (astart h prog n).
Proof.
  intros U. constructor; cbn [astart al_heap al_todo al_next al_readers al_seen].
  - exists []. split; reflexivity.
  - exact U.
  - intros k did b got H. apply nth_error_In, repeat_spec in H. discriminate.
  - intros ? ? [].
Qed.

Lemma seen_snapshots h prog n s did d :
  untouched prog -> asteps (astart h prog n) s -> In (did, d) (al_seen s) ->
  1 <= did /\ nth_error (snapshots h prog) (N.to_nat (did - 1)) = Some (Some d).
Proof.
  intros U St. apply (g_seen (snapshots h prog) s).
  remember (astart h prog n) as s0. induction St as [|? s' s'' St IH S1]; subst; [apply good_start, U|].
  eapply good_step; [apply IH; reflexivity|exact S1].
Qed.

(** A step can always be made until everything has been added and read. *)
Lemma astep_progress h prog nx rs l :
  rs <> [] -> (forall b, In (CAdd b) prog -> (b < length h)%nat) ->
  (forall k did b got, nth_error rs k = Some (RRead did b got) -> exists d, nth_error h b = Some d /\ (List.length got <= length d)%nat) ->
  (prog = [] /\ forall r, In r rs -> r = RIdle) \/ exists s', astep (MkA h prog nx rs l) s'.
Proof.
  intros Ne V R.
  assert (D : (forall r, In r rs -> r = RIdle) \/ exists k did b got, nth_error rs k = Some (RRead did b got)).
  { clear. induction rs as [|[|did b got] rs IH].
    - left. intros ? [].
    - destruct IH as [IH|(k & did & b & got & IH)]; [left; intros r [<-|H]; auto|right; exists (S k), did, b, got; exact IH].
    - right. exists 0%nat, did, b, got. reflexivity. }
  destruct D as [D|(k & did & b & got & Hk)].
  - destruct prog as [|[b|b i x] t]; [left; auto| |].
    + right. eexists. apply (a_add h b t nx rs l 0). destruct rs as [|r rs]; [contradiction|]. cbn. f_equal. apply D. left. reflexivity.
    + right. eexists. apply a_set.
  - right. destruct (R _ _ _ _ Hk) as (d & Hb & Le). destruct (Nat.eq_dec (List.length got) (List.length d)) as [E|E].
    + eexists. eapply a_done; eauto.
    + destruct (nth_error d (List.length got)) as [x|] eqn:Hx.
      * eexists. eapply a_read; eauto.
      * apply nth_error_None in Hx. lia.
Qed.

Lemma asteps_trans a b c : asteps a b -> asteps b c -> asteps a c.
Proof. intros A B. induction B as [|? b' b'' B IH S]; [exact A|]. eapply as_step; [apply IH, A|exact S]. Qed.

Lemma upd_upd {A} k (x y : A) l : upd k x (upd k y l) = upd k x l.
Proof. revert k. induction l; intros [|k]; cbn; f_equal; auto. Qed.

(** Reading the rest of a slice. *)
Lemma read_all h t nx rs l k did b d m : (k < length rs)%nat -> nth_error h b = Some d -> forall got,
  (List.length got + m = length d)%nat ->
  asteps (MkA h t nx (upd k (RRead did b got) rs) l) (MkA h t nx (upd k (RRead did b (got ++ skipn (List.length got) d)) rs) l).
Proof.
  intros Hk Hb. induction m as [|m IH]; intros got L.
  - rewrite skipn_all2 by lia. rewrite app_nil_r. constructor.
  - destruct (nth_error d (List.length got)) as [x|] eqn:Hx; [|apply nth_error_None in Hx; lia].
    eapply asteps_trans.
    + eapply as_step; [constructor|]. apply (a_read _ _ _ _ _ k did b got d x); [|exact Hb|exact Hx].
      apply nth_error_upd_eq, Hk.
    + rewrite upd_upd. replace (got ++ skipn (List.length got) d) with ((got ++ [x]) ++ skipn (List.length (got ++ [x])) d).
      * apply IH. rewrite app_length. cbn. lia.
      * rewrite <- app_assoc. f_equal. rewrite app_length, Nat.add_comm. cbn [length Nat.add app].
        clear - Hx. revert Hx. generalize (List.length got). induction d as [|z d IH]; intros [|n] Hx; try discriminate; cbn in *; [congruence|]. apply IH, Hx.
Qed.

Lemma upd_repeat {A} (x : A) n : upd 0 x (repeat x n) = repeat x n.
Proof. destruct n; reflexivity. Qed.

Lemma reused_slice d i x y n : nth_error d i = Some x -> y <> x -> (0 < n)%nat ->
  exists s d', asteps (astart [d] [CAdd 0; CSet 0 i y] n) s /\ al_todo s = [] /\ al_readers s = repeat RIdle n /\
    al_seen s = [(1, d')] /\ snapshots [d] [CAdd 0; CSet 0 i y] = [Some d] /\ d' <> d.
Proof.
  intros Hi Ne Hn. exists (MkA [upd i y d] [] 2 (repeat RIdle n) [(1, upd i y d)]), (upd i y d).
  split; [|repeat split].
  - eapply as_step. eapply asteps_trans.
    + eapply as_step; [eapply as_step; [constructor|]|].
      * apply (a_add _ _ _ _ _ _ 0). destruct n; [lia|]. reflexivity.
      * apply a_set.
    + cbn [heap_set nth_error upd]. apply (read_all _ _ _ _ _ 0 _ 0 (upd i y d) (List.length (upd i y d))); [rewrite repeat_length; exact Hn|reflexivity|reflexivity].
    + cbn [app length skipn]. 
      pose proof (a_done [upd i y d] [] 2 (upd 0 (RRead 1 0 (upd i y d)) (repeat RIdle n)) [] 0 1 0 (upd i y d) (upd i y d)) as D.
      rewrite upd_upd, upd_repeat in D. apply D; [apply nth_error_upd_eq; rewrite repeat_length; exact Hn|reflexivity|reflexivity].
  - intros E. apply Ne. assert (H : nth_error (upd i y d) i = Some y).
    { apply nth_error_upd_eq. apply nth_error_Some. congruence. }
    rewrite E in H. congruence.
Qed.

Lemma torn : exists h prog s d', asteps (astart h prog 1) s /\ al_todo s = [] /\ al_seen s = [(1, d'); (2, bs "dog")] /\
  snapshots h prog = [Some (bs "cat"); Some (bs "dog")] /\ d' = bs "cog".
Proof.
  exists [bs "cat"], [CAdd 0; CSet 0 0 100; CSet 0 1 111; CSet 0 2 103; CAdd 0].
  eexists (MkA _ _ _ _ _), (bs "cog"). split.
  - eapply as_step; [eapply as_step; [eapply as_step; [eapply as_step; [eapply as_step; [eapply as_step; [eapply as_step;
      [eapply as_step; [eapply as_step; [eapply as_step; [eapply as_step; [eapply as_step; [eapply as_step; [constructor|]|]|]|]|]|]|]|]|]|]|]|]|].
    + apply (a_add _ _ _ _ _ _ 0). reflexivity.
    + apply (a_read _ _ _ _ _ 0 1 0 [] (bs "cat") 99); reflexivity.
    + apply a_set.
    + apply a_set.
    + apply a_set.
    + apply (a_read _ _ _ _ _ 0 1 0 [99] (bs "dog") 111); reflexivity.
    + apply (a_read _ _ _ _ _ 0 1 0 [99; 111] (bs "dog") 103); reflexivity.
    + apply (a_done _ _ _ _ _ 0 1 0 [99; 111; 103] (bs "dog")); reflexivity.
    + apply (a_add _ _ _ _ _ _ 0). reflexivity.
    + apply (a_read _ _ _ _ _ 0 2 0 [] (bs "dog") 100); reflexivity.
    + apply (a_read _ _ _ _ _ 0 2 0 [100] (bs "dog") 111); reflexivity.
    + apply (a_read _ _ _ _ _ 0 2 0 [100; 111] (bs "dog") 103); reflexivity.
    + apply (a_done _ _ _ _ _ 0 2 0 [100; 111; 103] (bs "dog")); reflexivity.
  - repeat split; reflexivity.
Qed.

Lemma place_again cwd d docs :
  place_of (docs ++ [(cwd, d); (cwd, doc_after_add d)]) (N.of_nat (List.length docs) + 2) = (show_abs (spec_abs cwd []), d_start d, d_end d) /\
  place_of (docs ++ [(cwd, d); (cwd, doc_after_add d)]) (N.of_nat (List.length docs) + 1) = (show_abs (spec_abs cwd (d_path d)), d_start d, d_end d).
Proof.
  unfold place_of. rewrite !nth_error_app2 by lia.
  replace (N.to_nat (N.of_nat (List.length docs) + 2 - 1) - length docs)%nat with 1%nat by lia.
  replace (N.to_nat (N.of_nat (List.length docs) + 1 - 1) - length docs)%nat with 0%nat by lia. split; reflexivity.
Qed.
