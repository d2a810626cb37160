(** Two requests with one number: the session never ends. *)
From Coq Require Import Lia.
From Verif Require Import Model.Base Model.Conc.
From Verif Require Import Proof.Tactics.
Local Open Scope N_scope.

Fixpoint total {A} (g : A -> nat) (l : list A) : nat := match l with [] => 0 | a :: l => g a + total g l end.
Lemma total_upd {A} (g : A -> nat) x : forall l i y, nth_error l i = Some y -> (total g (upd i x l) + g y = total g l + g x)%nat.
Proof.
  induction l as [|a l IH]; intros [|i] y E; cbn in *; try discriminate; [injection E as ->; lia|]. specialize (IH i y E). lia.
Qed.
Lemma total_map {A} (g : A -> nat) (f : A -> A) l : (forall a, g (f a) = g a) -> total g (map f l) = total g l.
Proof. intros H. induction l as [|a l IH]; cbn; [reflexivity|]. rewrite H, IH. reflexivity. Qed.
Lemma total_zero {A} (g : A -> nat) l : Forall (fun a => g a = 0%nat) l -> total g l = 0%nat.
Proof. induction 1 as [|a l E _ IH]; cbn; [reflexivity|]. rewrite E, IH. reflexivity. Qed.
Lemma total_ge {A} (g : A -> nat) l : forall i a, nth_error l i = Some a -> (g a <= total g l)%nat.
Proof. induction l as [|b l IH]; intros [|i] a E; cbn in *; try discriminate; [injection E as ->; lia|]. specialize (IH i a E). lia. Qed.

Section Stuck.
  Context {W D P S : Type}.
  Variable work : W -> N -> D -> result (W * list (list P)).
  Variable absorb : S -> P -> S.
  Notation state := (@state W D P S).
  Notation step := (@step W D P S work absorb).

  Variable phi : N -> nat.
  Definition cw (c : @client D) : nat := match cl_send c with Some (i, _) => phi i | None => 0 end.
  Definition ww (w : @wstate W D P) : nat :=
    match w with WDo _ i _ | WLock _ i _ | WChk _ i _ | WWait _ i _ | WSend _ i _ => phi i | WIdle _ | WStop => 0 end.
  Definition pending (st : state) : nat := total cw (s_clients st) + total ww (s_workers st).

  Definition coming (st : state) : nat := total (fun c : @client D => length (cl_docs c)) (s_clients st).

  Lemma wake_weight (w : @wstate W D P) : ww (wake w) = ww w.
  Proof. destruct w; reflexivity. Qed.

  Lemma pending_step st st' : step st st' ->
    (pending st' = pending st /\ s_mono st' = s_mono st /\ s_next st' = s_next st) \/
    (pending st' = pending st + phi (s_next st) /\ s_mono st' = s_mono st /\ s_next st' = u32 (s_next st + 1))%nat \/
    (exists k w did gs, nth_error (s_workers st) k = Some (WSend w did gs) /\ (pending st' + phi did = pending st)%nat /\ s_mono st' = did /\ s_next st' = s_next st).
  Proof.
    intros X. inversion X; subst st'; clear X; unfold sender_at in *; unfold pending; cbn [set_client set_next set_main set_worker set_workers set_mutex set_mono set_server s_clients s_workers s_mono s_next].
    all: repeat match goal with H : _ /\ _ |- _ => destruct H end.
    all: repeat match goal with
      | H : nth_error (s_clients ?s) ?i = Some ?c |- context [upd ?i ?x (s_clients ?s)] => pose proof (total_upd cw x _ _ _ H); clear H
      end.
    1: { right; left. match goal with E : (total _ _ + cw ?a = _ + cw ?b)%nat |- _ => unfold cw in E at 2 4; cbn [cl_send] in E; rewrite H0 in E end. split; [lia|]. split; reflexivity. }
    1: { left. match goal with E : (total _ _ + cw ?a = _ + cw ?b)%nat |- _ => unfold cw in E at 2 4; cbn [cl_send] in E; rewrite H0 in E end. pose proof (total_upd ww (WDo w did d) _ _ _ H1) as E. cbn [ww] in E. split; [lia|]. split; reflexivity. }
    all: try (left; split; [reflexivity|split; reflexivity]).
    all: try (left; match goal with H : nth_error (s_workers ?s) ?k = Some ?a |- context [upd ?k ?x (s_workers ?s)] =>
      pose proof (total_upd ww x _ _ _ H) as E; cbn [ww] in E; split; [lia|split; reflexivity] end).
    - left. match goal with |- context [upd ?a ?x (upd ?b ?y (s_workers ?s))] => assert (N1 : nth_error (upd b y (s_workers s)) a = nth_error (s_workers s) a) by (apply nth_error_upd_ne; auto) end.
      match goal with H : nth_error (s_workers ?s) k = Some _ |- _ => pose proof H as Ha; rewrite <- N1 in Ha end.
      match goal with H : nth_error (s_workers ?s) k' = Some _ |- context [upd k' ?y _] => pose proof (total_upd ww y _ _ _ H) as E1 end.
      match goal with |- context [upd k ?y _] => pose proof (total_upd ww y _ _ _ Ha) as E2 end. cbn [ww] in E1, E2. split; [lia|split; reflexivity].
    - right; right. exists k, w, did, gs. split; [assumption|]. split; [|split; reflexivity].
      match goal with H : nth_error (s_workers ?s) k = Some _ |- _ => pose proof (map_nth_error wake _ _ H) as Ha end. cbn [wake] in Ha.
      pose proof (total_upd ww (WIdle w) _ _ _ Ha) as E. cbn [ww] in E. rewrite (total_map ww wake _ wake_weight) in E. lia.
  Qed.

  Lemma coming_step st st' : step st st' -> s_next st' = s_next st /\ coming st' = coming st \/ s_next st' = u32 (s_next st + 1) /\ Datatypes.S (coming st') = coming st.
  Proof.
    intros X. inversion X; subst st'; clear X; unfold coming; cbn [set_client set_next set_main set_worker set_workers set_mutex set_mono set_server s_clients s_workers s_mono s_next]; auto.
    - right. split; [reflexivity|]. match goal with H : nth_error (s_clients st) ?i = Some ?c |- context [upd ?i ?x _] => pose proof (total_upd (fun c : client => length (cl_docs c)) x _ _ _ H) as E end.
      cbn [cl_docs] in E. rewrite H1 in E. cbn [length] in E. lia.
    - left. split; [reflexivity|]. match goal with H : nth_error (s_clients st) ?i = Some ?c |- context [upd ?i ?x _] => pose proof (total_upd (fun c : client => length (cl_docs c)) x _ _ _ H) as E end.
      cbn [cl_docs] in E. lia.
  Qed.

  (** Who is past the lock holds it, and who sends has the turn. *)
  Definition okw (mx : option nat) (mono : N) (k : nat) (w : @wstate W D P) : Prop :=
    match w with WChk _ _ _ => mx = Some k | WSend _ did _ => mx = Some k /\ mono = sub32 did 1 | _ => True end.
  Definition lk (ws : list (@wstate W D P)) (mx : option nat) (mono : N) : Prop := forall k w, nth_error ws k = Some w -> okw mx mono k w.
  Definition neutral (w : @wstate W D P) : Prop := match w with WChk _ _ _ | WSend _ _ _ => False | _ => True end.

  Lemma neutral_ok mx mono k w : neutral w -> okw mx mono k w.
  Proof. destruct w; cbn; tauto. Qed.
  Lemma lk_upd ws mx mono k x : lk ws mx mono -> okw mx mono k x -> lk (upd k x ws) mx mono.
  Proof.
    intros I O j w E. rewrite nth_error_upd in E. destruct (Nat.eqb_spec k j) as [<-|_]; [|apply I, E].
    destruct (nth_error ws k); [injection E as <-; exact O|discriminate].
  Qed.
  Lemma lk_none ws mono mx' mono' : lk ws None mono -> lk ws mx' mono'.
  Proof. intros I j w E. specialize (I j w E). apply neutral_ok. destruct w; cbn in *; try exact Logic.I; [discriminate|destruct I; discriminate]. Qed.
  Lemma lk_release ws mono k w0 x mx' mono' : lk ws (Some k) mono -> nth_error ws k = Some w0 -> okw mx' mono' k x -> lk (upd k x ws) mx' mono'.
  Proof.
    intros I E0 O j w E. rewrite nth_error_upd in E. destruct (Nat.eqb_spec k j) as [<-|Ne].
    - rewrite E0 in E. injection E as <-. exact O.
    - specialize (I j w E). apply neutral_ok. destruct w; cbn in *; try exact Logic.I; [injection I as ->; contradiction|destruct I as [[= ->] _]; contradiction].
  Qed.
  Lemma lk_wake ws mx mono : lk ws mx mono -> lk (map wake ws) mx mono.
  Proof.
    intros I j w E. rewrite nth_error_map in E. destruct (nth_error ws j) as [w0|] eqn:E0; [|discriminate]. injection E as <-. specialize (I j w0 E0). destruct w0; cbn in *; exact I.
  Qed.

  Lemma lk_step st st' : step st st' -> lk (s_workers st) (s_mutex st) (s_mono st) -> lk (s_workers st') (s_mutex st') (s_mono st').
  Proof.
    intros X I. inversion X; subst st'; clear X; unfold sender_at in *; cbn [set_client set_next set_main set_worker set_workers set_mutex set_mono set_server s_clients s_workers s_mono s_next s_mutex] in *; try exact I.
    all: repeat match goal with H : _ /\ _ |- _ => destruct H end.
    all: try (apply lk_upd; [exact I|exact Logic.I]).
    all: try (apply lk_upd; [exact I|]; match goal with H : nth_error (s_workers ?s) _ = Some (WSend _ _ _) |- _ => exact (I _ _ H) end).
    - match goal with H : s_mutex ?s = None |- _ => rewrite H in I end. apply lk_upd; [apply (lk_none _ _ _ _ I)|reflexivity].
    - match goal with H : nth_error (s_workers ?s) _ = Some (WChk _ _ _) |- _ => pose proof (I _ _ H) as E; cbn in E; rewrite E in I; eapply lk_release; [exact I|exact H|exact Logic.I] end.
    - apply lk_upd; [exact I|]. match goal with H : nth_error (s_workers ?s) _ = Some (WChk _ _ _) |- _ => pose proof (I _ _ H) as E end. cbn in *. auto.
    - apply lk_upd; [apply lk_upd; [exact I|]|]; match goal with H : nth_error (s_workers ?s) ?a = Some (WSend _ _ _) |- okw _ _ ?a _ => exact (I _ _ H) end.
    - match goal with H : nth_error (s_workers ?s) _ = Some (WSend _ _ _) |- _ => pose proof (I _ _ H) as [E _]; rewrite E in I; pose proof (map_nth_error wake _ _ H) as E2 end.
      eapply lk_release; [apply lk_wake, I|exact E2|exact Logic.I].
  Qed.
End Stuck.

(** Close has sent as many shutdowns as workers have stopped. *)
Section Stops.
  Context {W D P S : Type}.
  Variable work : W -> N -> D -> result (W * list (list P)).
  Variable absorb : S -> P -> S.
  Notation state := (@state W D P S).

  Definition stopped (w : @wstate W D P) : nat := match w with WStop => 1 | _ => 0 end.
  Definition closed_down (st : state) : Prop :=
    match s_main st with
    | MRun => total stopped (s_workers st) = 0%nat
    | MClose n => Forall client_done (s_clients st) /\ (total stopped (s_workers st) + n = length (s_workers st))%nat
    | MChan _ => Forall client_done (s_clients st) /\ total stopped (s_workers st) = length (s_workers st)
    end.

  Lemma stopped_upd k w w0 (ws : list (@wstate W D P)) : nth_error ws k = Some w0 -> stopped w = stopped w0 -> total stopped (upd k w ws) = total stopped ws.
  Proof. intros E Es. pose proof (total_upd stopped w _ _ _ E). lia. Qed.

  Lemma stops_step st st' : step work absorb st st' -> closed_down st -> closed_down st'.
  Proof.
    intros X I. inversion X; subst st'; clear X; unfold sender_at in *; unfold closed_down in *; cbn [set_client set_next set_main set_worker set_workers set_mutex set_mono set_server s_main s_clients s_workers s_mono s_next s_mutex] in *; try exact I.
    all: repeat match goal with H : _ /\ _ |- _ => destruct H end.
    all: rewrite ?upd_length.
    all: try (erewrite stopped_upd; [exact I|eassumption|reflexivity]).
    - destruct (s_main st) eqn:Em; [exact I| |]; exfalso; destruct I as [Fc _]; rewrite Forall_forall in Fc; match goal with H : nth_error (s_clients _) _ = Some _ |- _ => specialize (Fc _ (nth_error_In _ _ H)); destruct Fc; congruence end.
    - destruct (s_main st) eqn:Em; [erewrite stopped_upd; [exact I|eassumption|reflexivity]| |]; exfalso; destruct I as [Fc _]; rewrite Forall_forall in Fc; match goal with H : nth_error (s_clients _) _ = Some _ |- _ => specialize (Fc _ (nth_error_In _ _ H)); destruct Fc; congruence end.
    - match goal with H : s_main _ = MRun |- _ => rewrite H in I end. split; [assumption|lia].
    - match goal with H : s_main _ = MClose _ |- _ => rewrite H in I end. destruct I as [Fc I]. split; [exact Fc|].
      match goal with H : nth_error (s_workers _) ?k = Some _ |- _ => pose proof (total_upd stopped WStop _ _ _ H) as E end. cbn [stopped] in E. lia.
    - match goal with H : s_main _ = MClose _ |- _ => rewrite H in I end. destruct I as [Fc I]. split; [exact Fc|lia].
    - match goal with H : s_main _ = MChan _ |- _ => rewrite H in I end. exact I.
    - erewrite stopped_upd; [erewrite stopped_upd; [exact I|eassumption|reflexivity]|rewrite nth_error_upd_ne by auto; eassumption|reflexivity].
    - rewrite map_length. erewrite stopped_upd; [rewrite (total_map stopped wake); [exact I|intros []; reflexivity]| |].
      + apply map_nth_error. eassumption.
      + reflexivity.
  Qed.

  Lemma all_stopped (ws : list (@wstate W D P)) : total stopped ws = length ws -> Forall (fun w => w = WStop) ws.
  Proof.
    assert (B : forall ws : list (@wstate W D P), (total stopped ws <= length ws)%nat).
    { induction ws0 as [|w ws0 IH]; cbn [total length]; [lia|]. destruct w; cbn [stopped]; lia. }
    induction ws as [|w ws IH]; intros E; [constructor|]. cbn [total length] in E. specialize (B ws). destruct w; cbn [stopped] in E; try lia. constructor; [reflexivity|apply IH; lia].
  Qed.
End Stops.

Section Twice.
  Context {W D P S : Type}.
  Variable work : W -> N -> D -> result (W * list (list P)).
  Variable absorb : S -> P -> S.
  Notation state := (@state W D P S).

  Definition same (d : N) (i : N) : nat := if i =? d then 1 else 0.
  Definition one (i : N) : nat := 1%nat.

  Definition wide (i : N) : nat := if i <? 4294967296 then 0 else 1.

  (** [T]: the number of the last document when all have been taken. *)
  Definition twice (d T : N) (st : state) : Prop :=
    s_mono st + N.of_nat (pending one st) + N.of_nat (coming st) = T /\ d - 1 <= s_mono st /\
    ((if (d <=? s_mono st)%N then 1 else 2) <= pending (same d) st)%nat /\
    lk (s_workers st) (s_mutex st) (s_mono st) /\ pending wide st = 0%nat /\ s_next st < 4294967296.

  Lemma twice_step d T st st' : 0 < d -> T < 4294967295 -> step work absorb st st' -> twice d T st -> twice d T st'.
  Proof.
    intros Hd HT X (I1 & I2 & I3 & I4 & I5 & I6). pose proof (lk_step work absorb one st st' X I4) as I4'.
    pose proof (pending_step work absorb one st st' X) as P1. pose proof (pending_step work absorb (same d) st st' X) as P2. pose proof (pending_step work absorb wide st st' X) as P4.
    pose proof (coming_step work absorb one st st' X) as P3.
    assert (Nx : u32 (s_next st + 1) <> s_next st).
    { unfold u32. intros E. destruct (N.eq_dec (s_next st + 1) 4294967296) as [E2|E2]; [rewrite E2 in E; change (4294967296 mod 4294967296) with 0 in E; lia|].
      rewrite N.mod_small in E by lia. lia. }
    assert (Nb : u32 (s_next st + 1) < 4294967296) by (apply N.mod_upper_bound; discriminate).
    assert (Se : forall k w did gs, nth_error (s_workers st) k = Some (WSend w did gs) -> did = s_mono st + 1).
    { intros k w did gs E. pose proof (I4 _ _ E) as [_ Em]. assert (Lt : did < 4294967296).
      { unfold pending in I5. pose proof (total_ge (ww wide) _ _ _ E) as L. cbn [ww] in L. unfold wide at 1 in L. destruct (N.ltb_spec did 4294967296); lia. }
      unfold sub32, u32 in Em. destruct (N.eq_dec did 0) as [->|Nz]; [change ((0 + 4294967296 - 1) mod 4294967296) with 4294967295 in Em; lia|].
      replace (did + 4294967296 - 1) with (did - 1 + 1 * 4294967296) in Em by lia. rewrite N.mod_add, N.mod_small in Em by lia. lia. }
    destruct P1 as [(A & B & C)|[(A & B & C)|(k & w & did & gs & A & B & C & C')]].
    - destruct P3 as [[E F]|[E F]]; [|congruence]. destruct P2 as [(A2 & B2 & C2)|[(A2 & B2 & C2)|(k2 & w2 & did2 & gs2 & A2 & B2 & C2 & C2')]]; [|congruence|rewrite (Se _ _ _ _ A2) in C2; lia].
      destruct P4 as [(A4 & B4 & C4)|[(A4 & B4 & C4)|(k4 & w4 & did4 & gs4 & A4 & B4 & C4 & C4')]]; [|congruence|rewrite (Se _ _ _ _ A4) in C4; lia].
      unfold twice. rewrite A, B, C, A2, A4, F. rewrite B in I4'. auto 9.
    - destruct P3 as [[E F]|[E F]]; [congruence|]. destruct P2 as [(A2 & B2 & C2)|[(A2 & B2 & C2)|(k2 & w2 & did2 & gs2 & A2 & B2 & C2 & C2')]]; [congruence| |congruence].
      destruct P4 as [(A4 & B4 & C4)|[(A4 & B4 & C4)|(k4 & w4 & did4 & gs4 & A4 & B4 & C4 & C4')]]; [congruence| |congruence].
      unfold twice. rewrite B in I4' |- *. rewrite A, C, A2, A4. split; [change (one (s_next st)) with 1%nat; lia|]. split; [exact I2|]. split; [eapply Nat.le_trans; [exact I3|apply Nat.le_add_r]|]. split; [exact I4'|]. split; [|exact Nb].
      unfold wide at 2. apply N.ltb_lt in I6. rewrite I6. lia.
    - pose proof (Se _ _ _ _ A) as Ed. destruct P3 as [[E F]|[E F]]; [|congruence].
      destruct P2 as [(A2 & B2 & C2)|[(A2 & B2 & C2)|(k2 & w2 & did2 & gs2 & A2 & B2 & C2 & C2')]]; [lia|congruence|].
      destruct P4 as [(A4 & B4 & C4)|[(A4 & B4 & C4)|(k4 & w4 & did4 & gs4 & A4 & B4 & C4 & C4')]]; [lia|congruence|].
      assert (did2 = did) as -> by congruence. assert (did4 = did) as -> by congruence.
      unfold twice. rewrite C in I4' |- *. rewrite F, C'. split; [unfold one in *; lia|]. split; [lia|]. split; [|split; [exact I4'|split; [lia|exact I6]]].
      assert (Sd : same d did = if did =? d then 1%nat else 0%nat) by reflexivity. revert I3 Sd. clear - B2 Ed I2 Hd.
      destruct (N.leb_spec d did), (N.leb_spec d (s_mono st)), (N.eqb_spec did d); lia.
  Qed.

  (** Two callers have got the same number [d], the next to be taken. *)
  Lemma twice_never st0 d i j x y : s_mono st0 = d - 1 -> 0 < d -> d + N.of_nat (pending one st0) + N.of_nat (coming st0) < 4294967296 ->
    s_next st0 < 4294967296 -> pending wide st0 = 0%nat -> s_mutex st0 = None -> lk (s_workers st0) None (s_mono st0) -> closed_down st0 ->
    i <> j -> nth_error (s_clients st0) i = Some x -> nth_error (s_clients st0) j = Some y ->
    (exists a, cl_send x = Some (d, a)) -> (exists b, cl_send y = Some (d, b)) ->
    forall st, steps work absorb st0 st -> forall q, s_main st <> MChan q.
  Proof.
    intros Hm Hd HT Hn Hw Hx Hl Hs Ne Ei Ej [a Ea] [b Eb] st St q Eq.
    assert (I : twice d (s_mono st0 + N.of_nat (pending one st0) + N.of_nat (coming st0)) st /\ closed_down st).
    { clear Eq. induction St as [st0|st0 st1 st2 St IH X].
      - split; [|exact Hs]. split; [reflexivity|]. split; [lia|]. split; [|split; [rewrite Hx; exact Hl|auto]].
        destruct (N.leb_spec d (s_mono st0)); [lia|]. unfold pending.
        assert (G : (2 <= total (cw (same d)) (s_clients st0))%nat); [|lia].
        assert (Cx : cw (same d) x = 1%nat) by (unfold cw, same; rewrite Ea, N.eqb_refl; reflexivity).
        assert (Cy : cw (same d) y = 1%nat) by (unfold cw, same; rewrite Eb, N.eqb_refl; reflexivity).
        pose proof (total_upd (cw (same d)) (MkClient None []) _ _ _ Ei) as T1. change (cw (same d) (MkClient None [])) with 0%nat in T1.
        assert (Ej' : nth_error (upd i (MkClient None []) (s_clients st0)) j = Some y) by (rewrite nth_error_upd_ne; auto).
        pose proof (total_ge (cw (same d)) _ _ _ Ej') as T2. lia.
      - destruct IH as [IH1 IH2]; try assumption. split; [eapply twice_step; [exact Hd|lia|exact X|exact IH1]|eapply stops_step; [exact X|exact IH2]]. }
    destruct I as [(_ & _ & I3 & _) Cd]. unfold closed_down in Cd. rewrite Eq in Cd. destruct Cd as [F1 F2]. apply (all_stopped work) in F2.
    assert (pending (same d) st = 0%nat).
    { unfold pending. rewrite !total_zero; [reflexivity| |].
      - eapply Forall_impl; [|exact F2]. cbn. intros w ->. reflexivity.
      - eapply Forall_impl; [|exact F1]. cbn. intros c [E _]. unfold cw. rewrite E. reflexivity. }
    revert I3. destruct (d <=? s_mono st); lia.
  Qed.
End Twice.
