(** The like and unblot commands on indexes made by the indexer, exactly. *)
From Coq Require Import String.
From Verif Require Import Model.Base Model.Utf8 Model.Token Model.Blotter Model.Shatter Model.Config Model.Conc Model.Index Model.Query Model.Session Model.Cmd.
From Verif Require Import Spec.Text Spec.Fingerprint Spec.Configs Spec.Querying Spec.History Spec.Reading Spec.Paths Spec.Stretch Spec.Str.
From Verif Require Import Proof.Tactics Proof.Utf8P Proof.TokenP Proof.BlotterP Proof.ShatterP Proof.IndexP Proof.IndexP2 Proof.FindP Proof.BlotsP Proof.QueryP Proof.SessionP Proof.SessionP2 Proof.CmdP Proof.StretchP Proof.LikeP Proof.LikeP2 Proof.LikeP3 Proof.UnblotP Proof.QueryW Proof.WalkP.
Local Open Scope N_scope.
Local Open Scope list_scope.

Lemma words_fun u d a b : doc_words (word_char u) d a -> doc_words (word_char u) d b -> a = b.
Proof. intros [(r & T & ->)|(NT & ->)] [(r' & T' & ->)|(NT' & ->)]; [rewrite (text_same _ _ _ T T'); reflexivity|exfalso; eapply NT'; eauto|exfalso; eapply NT; eauto|reflexivity]. Qed.

Lemma spans_fun u d a b : doc_spans (word_char u) d a -> doc_spans (word_char u) d b -> a = b.
Proof. intros [(r & T & ->)|(NT & ->)] [(r' & T' & ->)|(NT' & ->)]; [rewrite (text_same _ _ _ T T'); reflexivity|exfalso; eapply NT'; eauto|exfalso; eapply NT; eauto|reflexivity]. Qed.

Section Distinct.
  Variables (u : unicode) (fs : files) (grow : nat -> nat) (ix : index).
  Lemma like_docs_nodup bm keys : forall found found', NoDup found -> like_docs u fs ix bm keys found = Ok found' -> NoDup found'.
  Proof.
    induction keys as [|key keys IH]; intros found found' ND E; cbn [like_docs] in E; [injection E as <-; exact ND|].
    destruct (existsb (same_key key) found) eqn:Ek; [eapply IH; eassumption|].
    destruct (load_find_blots u fs ix bm key) as [rm|e| |]; try discriminate. cbn [bind] in E. destruct rm as [|x rm]; [eapply IH; eassumption|].
    refine (IH _ _ _ E). apply WalkP.NoDup_app_iff'; [exact ND|constructor; [intros []|constructor]|].
    intros y Hy [<-|[]]. apply known_spec in Hy. congruence.
  Qed.
  Lemma like_loop_nodup fuel bm blots : forall found found', NoDup found -> like_loop u fs grow ix fuel bm blots found = Ok found' -> NoDup found'.
  Proof.
    induction blots as [|b r IH]; intros found found' ND E; cbn [like_loop] in E; [injection E as <-; exact ND|].
    destruct (blot_space (ix_cfg ix) =? 0); [discriminate|]. destruct (query_get _ _ _ _ _) as [ds|e| |]; try discriminate. cbn [bind] in E.
    destruct (like_docs u fs ix bm (keys_of ds) found) as [f2|e| |] eqn:Ed; try discriminate. cbn [bind] in E.
    eapply IH; [|exact E]. eapply like_docs_nodup; eassumption.
  Qed.
  Lemma like_nodup fuel fname dat keys : like_file u fs grow ix fuel fname dat = Ok keys -> NoDup keys.
  Proof.
    unfold like_file. destruct (blot_doc _ _ _ _) as [bl|e| |]; try discriminate. cbn [bind]. destruct (idx_tokenize _ _ _ _) as [tk|e| |]; try discriminate. cbn [bind].
    destruct (like_texts _ _ _ _ _ _) as [bm|e| |]; try discriminate. cbn [bind]. intros E. eapply like_loop_nodup; [constructor|exact E].
  Qed.
End Distinct.

Section L4.
  Context (u : unicode) (c : config) (k m n : nat) (sorted : list N -> list nat).
  Hypothesis F : cfg_full c k m n.
  Hypothesis Hs : sorts sorted.
  Notation H := (word_hash u).
  Notation wc := (word_char u).
  Notation space := (N.of_nat n * 65536).

  Lemma at_blot_len wss q : (List.length (at_blot n (held H k m n wss) q) <= List.length wss)%nat.
  Proof. unfold at_blot, held. apply carriers_len. Qed.
  (** Documents are indexed under the blots of their windows. *)
  Lemma window_carriers wss q i dws dat dsp t : nth_error wss i = Some dws -> some_window H k m n dat dws dsp q t -> In (N.of_nat (S i)) (carriers H k m n 0 wss q).
  Proof.
    intros E (a & Ca & _). replace (N.of_nat (S i)) with (0 + 1 + N.of_nat i) by lia. eapply carriers_nth; [exact E|].
    unfold has_blot. apply existsb_exists. destruct (proj2 (spec_blots_carries H k m n dws q) (ex_intro _ _ Ca)) as (b & Hb & Eq). exists b. split; [exact Hb|]. apply N.eqb_eq, Eq.
  Qed.

  Theorem like_exactly ss dk ix grow fs fuel fname dat ws sp :
    history u c ss dk -> docs_fit (all_docs ss) -> open_index sorted dk = Ok ix -> (List.length (all_docs ss) < fuel)%nat ->
    all_in_place fs (all_docs ss) ->
    doc_words wc dat ws -> doc_spans wc dat sp -> nlen dat < 2 ^ 32 ->
    exists keys, like_file u fs grow ix fuel fname dat = Ok keys /\ NoDup keys /\
      forall key, In key keys <-> exists i cwd x dws dsp q t, nth_error (all_docs ss) i = Some (cwd, x) /\ key = place_of (all_docs ss) (N.of_nat (S i)) /\
        doc_words wc (d_dat x) dws /\ doc_spans wc (d_dat x) dsp /\
        last_window H k m n dat ws sp q t /\ some_window H k m n (d_dat x) dws dsp q t.
  Proof.
    intros Hi Fit Eo Hfu Ha W Sp Ld. pose proof F as [C Hn Hf]. pose proof (co_n _ _ _ _ C) as Hp.
    destruct (words_total u (all_docs ss)) as [wss Ww].
    destruct (opened u c k m n sorted F Hs ss dk wss Hi Fit Ww) as (ix' & Eo' & I). assert (ix' = ix) as -> by congruence. clear Eo'.
    pose proof (opened_cfg u c k m n sorted F ss dk ix Hi Fit Eo) as Ec. pose proof (words_of_len _ _ _ Ww) as Lw.
    assert (Cq : forall ws' q i, carries H k m n ws' q i -> q < space) by (intros ws' q i [_ <-]; apply N.mod_lt; lia).
    assert (Pl : forall i cwd x, nth_error (all_docs ss) i = Some (cwd, x) -> exists path end_, place_of (all_docs ss) (N.of_nat (S i)) = (path, 0, end_)).
    { intros i cwd x Ex. unfold place_of. replace (N.to_nat (N.of_nat (S i) - 1)) with i by lia. rewrite Ex. rewrite (proj1 (Ha _ _ _ Ex)). eauto. }
    destruct (like_exact u c k m n C Hn fs grow ix _ _ fuel fname dat ws sp Ec I) as (keys & E & X); auto.
    { intros q. pose proof (at_blot_len wss q). lia. }
    { intros q id (i0 & Ci) Hin. rewrite (at_blot_held u k m n) in Hin by eauto. apply carriers_in in Hin. destruct Hin as (i & ws' & -> & Ei & _).
      destruct (nth_Forall2' _ _ _ Ww _ _ Ei) as ([cwd x] & Ex & _). destruct (Ha _ _ _ Ex) as (S0 & Lx & If).
      replace (0 + 1 + N.of_nat i) with (N.of_nat (S i)) by lia. destruct (Pl _ _ _ Ex) as (p & e & Ep). rewrite Ep in *. eauto 6. }
    exists keys. split; [exact E|]. split; [eapply like_nodup, E|]. intros key. rewrite X. split.
    - intros ((q0 & id & (i0 & Ci) & Hin & ->) & ddat & dws & dsp & q & t & If & Wd & Sd & Lst & Sm).
      rewrite (at_blot_held u k m n) in Hin by eauto. apply carriers_in in Hin. destruct Hin as (i & ws' & -> & Ei & _).
      destruct (nth_Forall2' _ _ _ Ww _ _ Ei) as ([cwd x] & Ex & _). destruct (Ha _ _ _ Ex) as (S0 & Lx & If').
      replace (0 + 1 + N.of_nat i) with (N.of_nat (S i)) in * by lia.
      assert (ddat = d_dat x) as -> by (eapply in_file_unique; eauto). exists i, cwd, x, dws, dsp, q, t. auto 8.
    - intros (i & cwd & x & dws & dsp & q & t & Ex & -> & Wd & Sd & Lst & Sm). destruct (Ha _ _ _ Ex) as (S0 & Lx & If).
      destruct (nth_Forall2 _ _ _ Ww _ _ Ex) as (ws' & Ew' & W'). cbn [snd] in W'. assert (ws' = dws) as -> by (eapply words_fun; eauto).
      split; [|exists (d_dat x), dws, dsp, q, t; auto 6].
      destruct Lst as (j & Cj & _). exists q, (N.of_nat (S i)). split; [eauto|]. split; [|reflexivity].
      rewrite (at_blot_held u k m n) by eauto. eapply window_carriers; eassumption.
  Qed.

  Theorem unblot_history ss dk ix grow fs fuel q wss :
    history u c ss dk -> docs_fit (all_docs ss) -> words_of wc (all_docs ss) wss -> open_index sorted dk = Ok ix -> (List.length (all_docs ss) < fuel)%nat ->
    (forall i, (i < List.length (all_docs ss))%nat -> readable fs (place_of (all_docs ss) (N.of_nat (S i)))) -> q < space ->
    exists os g, Forall2 (fun id o => outcome H k m n wc fs q (place_of (all_docs ss) id) o) (carriers H k m n 0 wss q) os /\
      unblot u fs grow ix fuel true q = Ok g /\
      unblot u fs grow ix fuel false q = Ok (filter (fun p => (2 <=? List.length (snd p))%nat) g) /\
      NoDup (map fst g) /\
      forall t l, In (t, l) g <-> l <> [] /\ l = keys_with t (outcomes os).
  Proof.
    intros Hi Fit Ww Eo Hfu Hr Lq. pose proof F as [C Hn Hf]. pose proof (co_n _ _ _ _ C) as Hp.
    destruct (opened u c k m n sorted F Hs ss dk wss Hi Fit Ww) as (ix' & Eo' & I). assert (ix' = ix) as -> by congruence. clear Eo'.
    pose proof (opened_cfg u c k m n sorted F ss dk ix Hi Fit Eo) as Ec. pose proof (words_of_len _ _ _ Ww) as Lw.
    pose proof (at_blot_held u k m n wss q Hp Lq) as Ea.
    destruct (unblot_exact u c k m n C Hn fs grow ix _ _ fuel q Ec I) as (os & g & X).
    - pose proof (at_blot_len wss q). lia.
    - intros id Hin. rewrite Ea in Hin. apply carriers_in in Hin. destruct Hin as (i & ws' & -> & Ei & _).
      replace (0 + 1 + N.of_nat i) with (N.of_nat (S i)) by lia. apply Hr. rewrite <- Lw. apply nth_error_Some. congruence.
    - rewrite Ea in X. exists os, g. exact X.
  Qed.
  (** Numbers that are no blots. *)
  Lemma no_carriers wss q : space <= q -> carriers H k m n 0 wss q = [].
  Proof.
    intros L. pose proof (co_n _ _ _ _ (cu_ok _ _ _ _ F)) as Hp. generalize 0. induction wss as [|ws wss IH]; intros last; cbn [carriers]; [reflexivity|].
    rewrite IH. assert (has_blot H k m n ws q = false) as ->; [|reflexivity]. unfold has_blot. apply not_true_is_false. intros E. apply existsb_exists in E.
    destruct E as (b & _ & E). apply N.eqb_eq in E. pose proof (N.mod_lt b space ltac:(lia)). lia.
  Qed.
  Theorem unblot_large ss dk ix grow fs fuel q all :
    history u c ss dk -> docs_fit (all_docs ss) -> open_index sorted dk = Ok ix -> (List.length (all_docs ss) < fuel)%nat ->
    (forall i, (i < List.length (all_docs ss))%nat -> readable fs (place_of (all_docs ss) (N.of_nat (S i)))) -> space <= q ->
    unblot u fs grow ix fuel all q = Ok [].
  Proof.
    intros Hi Fit Eo Hfu Hr Lq. pose proof F as [C Hn Hf]. pose proof (co_n _ _ _ _ C) as Hp. destruct (words_total u (all_docs ss)) as [wss Ww].
    destruct (opened u c k m n sorted F Hs ss dk wss Hi Fit Ww) as (ix' & Eo' & I). assert (ix' = ix) as -> by congruence. clear Eo'.
    pose proof (opened_cfg u c k m n sorted F ss dk ix Hi Fit Eo) as Ec. pose proof (words_of_len _ _ _ Ww) as Lw.
    destruct (unblot_exact u c k m n C Hn fs grow ix _ _ fuel q Ec I) as (os & g & Fo & E1 & E2 & ND & X).
    - pose proof (at_blot_len wss q). lia.
    - intros id Hin. unfold at_blot, held in Hin. apply carriers_in in Hin. destruct Hin as (i & ws' & -> & Ei & _).
      replace (0 + 1 + N.of_nat i) with (N.of_nat (S i)) by lia. apply Hr. rewrite <- Lw. apply nth_error_Some. congruence.
    - assert (Eo' : outcomes os = []).
      { clear -Fo C Hn Lq. revert Fo. generalize (at_blot n (held H k m n wss) q). induction os as [|o os IH]; intros ids Fo; [reflexivity|]. inversion Fo as [|id o' ids' os' Ho F']. subst.
        assert (o = None) as -> by (exact (no_large_outcome u c k m n C Hn fs q _ _ Lq Ho)). unfold outcomes in *. cbn [map concat app]. eauto. }
      assert (g = []) as ->.
      { destruct g as [|[t l] g]; [reflexivity|]. exfalso. destruct (X t l) as [X1 _]. destruct (X1 (or_introl eq_refl)) as [Hl ->]. rewrite Eo' in Hl. apply Hl. reflexivity. }
      destruct all; assumption.
  Qed.
  Lemma outcome_fun fs q key o o' : outcome H k m n wc fs q key o -> outcome H k m n wc fs q key o' -> o = o'.
  Proof.
    destruct o as [[t sh]|], o' as [[t' sh']|]; cbn [outcome]; try reflexivity.
    - intros (dat & (If & ws & sp & W & S & i & Ci & Fi & Si) & ->) (dat' & (If' & ws' & sp' & W' & S' & i' & Ci' & Fi' & Si') & ->).
      assert (dat' = dat) as -> by (eapply in_file_unique; eauto). rewrite (words_fun _ _ _ _ W' W) in *. rewrite (spans_fun _ _ _ _ S' S) in *.
      assert (i' = i) as ->. { destruct (Nat.lt_trichotomy i i') as [L|[->|L]]; [|reflexivity|]; exfalso; [apply (Fi' (i + k * m)%nat); [lia|exact Ci]|apply (Fi (i' + k * m)%nat); [lia|exact Ci']]. }
      destruct Si as (a & z & Ea & Ez & ->), Si' as (a' & z' & Ea' & Ez' & ->). rewrite Ea in Ea'. injection Ea' as <-. rewrite Ez in Ez'. injection Ez' as <-. reflexivity.
    - intros (dat & Ta & _) No. exfalso. eapply No, Ta.
    - intros No (dat & Ta & _). exfalso. eapply No, Ta.
  Qed.
  Lemma outcome_small fs q key t sh : readable fs key -> snd (fst key) < 2 ^ 32 -> outcome H k m n wc fs q key (Some (t, sh)) -> snd (fst sh) < 2 ^ 32 /\ snd sh < 2 ^ 32.
  Proof.
    intros R Ls (dat & (If & _) & ->). destruct key as [[p s] e]. cbn [fst snd] in Ls. destruct R as [Mi|(dat' & If' & Fi)]; [exfalso; exact (missing_no_file n (cu_n _ _ _ _ F) _ _ _ _ _ Mi If)|].
    assert (dat' = dat) as -> by (eapply in_file_unique; eauto). cbn [fits32] in Fi. cbn [shown fst snd]. split; assumption.
  Qed.
End L4.
