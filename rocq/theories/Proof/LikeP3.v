(** The like command on indexes made by the indexer. *)
From Coq Require Import String.
From Verif Require Import Model.Base Model.Utf8 Model.Token Model.Blotter Model.Shatter Model.Config Model.Conc Model.Index Model.Query Model.Session Model.Cmd.
From Verif Require Import Spec.Text Spec.Fingerprint Spec.Configs Spec.Querying Spec.History Spec.Reading Spec.Paths Spec.Stretch Spec.Str.
From Verif Require Import Proof.Tactics Proof.Utf8P Proof.TokenP Proof.BlotterP Proof.ShatterP Proof.IndexP Proof.IndexP2 Proof.FindP Proof.BlotsP Proof.QueryP Proof.SessionP Proof.SessionP2 Proof.CmdP Proof.StretchP Proof.LikeP Proof.LikeP2 Proof.QueryW.
Local Open Scope N_scope.
Local Open Scope list_scope.

Section L3.
  Context (u : unicode) (c : config) (k m n : nat) (sorted : list N -> list nat).
  Hypothesis F : cfg_full c k m n.
  Hypothesis Hs : sorts sorted.
  Notation H := (word_hash u).
  Notation wc := (word_char u).
  Notation space := (N.of_nat n * 65536).
  Notation window := (stretch (k * m)).

  Lemma opened_cfg ss dk ix : history u c ss dk -> docs_fit (all_docs ss) -> open_index sorted dk = Ok ix -> ix_cfg ix = c.
  Proof.
    intros Hi Fit E. destruct F as [Ok_ Hn Hf].
    assert (exists wss, words_of wc (all_docs ss) wss) as [wss Ww].
    { generalize (all_docs ss). intros l. induction l as [|[cwd d] l [wss IH]]; [exists []; constructor|].
      destruct (doc_words_total u (d_dat d)) as [ws W]. exists (ws :: wss). constructor; assumption. }
    destruct (history_inv u c k m n Ok_ Hn Hf ss dk Hi Fit wss Ww) as (fn & fs & D).
    unfold open_index, read_config in E. rewrite (di_cfg _ _ _ _ _ _ _ _ _ _ D) in E.
    destruct (cfg_check c); try discriminate. cbn [bind] in E. destruct (read_some Ok (k_dmd dk)); try discriminate. cbn [bind] in E.
    destruct (read_some Model.Fnames.read_fnames (k_fnames dk)); try discriminate. cbn [bind] in E. destruct (cf_numshards c <? 0)%Z; [discriminate|].
    destruct (for_shards _ _ _); try discriminate. cbn [bind] in E. injection E as <-. reflexivity.
  Qed.
  Lemma at_blot_held wss q : (0 < n)%nat -> q < space -> at_blot n (held H k m n wss) q = carriers H k m n 0 wss q.
  Proof.
    intros Hp Hq. unfold at_blot, held. f_equal. rewrite !N2Nat.id. pose proof (N.div_mod q (N.of_nat n) ltac:(lia)) as Dm.
    rewrite (N.mod_small (q / N.of_nat n)); [lia|]. apply N.div_lt_upper_bound; lia.
  Qed.

  Lemma carriers_in q : forall wss last id, In id (carriers H k m n last wss q) ->
    exists i ws, id = last + 1 + N.of_nat i /\ nth_error wss i = Some ws /\ has_blot H k m n ws q = true.
  Proof.
    induction wss as [|ws wss IH]; intros last id Hin; [destruct Hin|]. cbn [carriers] in Hin. apply in_app_or in Hin. destruct Hin as [Hin|Hin].
    - destruct (has_blot H k m n ws q) eqn:Eb; [|destruct Hin]. destruct Hin as [<-|[]]. exists 0%nat, ws. split; [lia|]. auto.
    - destruct (IH _ _ Hin) as (i & ws' & -> & Ei & Eb). exists (S i), ws'. split; [lia|]. auto.
  Qed.
  Lemma nth_Forall2 {A B} (P : A -> B -> Prop) l l' : Forall2 P l l' -> forall i a, nth_error l i = Some a -> exists b, nth_error l' i = Some b /\ P a b.
  Proof. induction 1; intros [|i] a E; cbn [nth_error] in *; try discriminate; eauto. injection E as <-. eauto. Qed.
  Lemma nth_Forall2' {A B} (P : A -> B -> Prop) l l' : Forall2 P l l' -> forall i b, nth_error l' i = Some b -> exists a, nth_error l i = Some a /\ P a b.
  Proof. induction 1; intros [|i] b E; cbn [nth_error] in *; try discriminate; eauto. injection E as <-. eauto. Qed.

  (** C54: reported, if no later stretch of the queried file has the same blot. *)
  Theorem like_complete ss dk ix grow fs fuel fname dat ws sp :
    history u c ss dk -> docs_fit (all_docs ss) -> open_index sorted dk = Ok ix -> (List.length (all_docs ss) < fuel)%nat ->
    all_in_place fs (all_docs ss) ->
    doc_words wc dat ws -> doc_spans wc dat sp -> nlen dat < 2 ^ 32 ->
    exists keys, like_file u fs grow ix fuel fname dat = Ok keys /\
      forall i cwd x dws dsp, nth_error (all_docs ss) i = Some (cwd, x) -> doc_words wc (d_dat x) dws -> doc_spans wc (d_dat x) dsp ->
        forall j a t, window dat sp j t -> window (d_dat x) dsp a t ->
          (forall q, carries H k m n ws q (j + k * m) -> forall j', (j + k * m < j')%nat -> ~ carries H k m n ws q j') ->
          In (place_of (all_docs ss) (N.of_nat (S i))) keys.
  Proof.
    intros Hi Fit Eo Hfu Ha W Sp Ld. destruct F as [C Hn Hf]. pose proof (co_n _ _ _ _ C) as Hp.
    assert (exists wss, words_of wc (all_docs ss) wss) as [wss Ww].
    { generalize (all_docs ss). intros l. induction l as [|[cwd d] l [wss IH]]; [exists []; constructor|].
      destruct (doc_words_total u (d_dat d)) as [ws' W']. exists (ws' :: wss). constructor; assumption. }
    destruct (opened u c k m n sorted F Hs ss dk wss Hi Fit Ww) as (ix' & Eo' & I). assert (ix' = ix) as -> by congruence. clear Eo'.
    pose proof (opened_cfg ss dk ix Hi Fit Eo) as Ec. pose proof (words_of_len _ _ _ Ww) as Lw.
    assert (Cq : forall ws' q i, carries H k m n ws' q i -> q < space) by (intros ws' q i [_ <-]; apply N.mod_lt; lia).
    destruct (like_exact u c k m n C Hn fs grow ix _ _ fuel fname dat ws sp Ec I) as (keys & E & X); auto.
    { intros q. unfold at_blot, held. pose proof (carriers_len H k m n (N.of_nat (N.to_nat (q / N.of_nat n mod 65536)) * N.of_nat n + N.of_nat (N.to_nat (q mod N.of_nat n))) wss 0). lia. }
    { intros q id (i0 & Ci) Hin. rewrite at_blot_held in Hin by eauto. apply carriers_in in Hin. destruct Hin as (i & ws' & -> & Ei & _).
      destruct (nth_Forall2' _ _ _ Ww _ _ Ei) as ([cwd x] & Ex & _). destruct (Ha _ _ _ Ex) as (S0 & Lx & If).
      replace (0 + 1 + N.of_nat i) with (N.of_nat (S i)) by lia.
      unfold place_of in *. replace (N.to_nat (N.of_nat (S i) - 1)) with i in * by lia. rewrite Ex in *. rewrite S0 in *. eauto 6. }
    exists keys. split; [exact E|]. intros i cwd x dws dsp Ex Wd Sd j a t Wj Wa La. apply X.
    destruct (Ha _ _ _ Ex) as (S0 & Lx & If).
    destruct Wj as (a1 & z1 & Ea1 & Ez1 & Et1). destruct Wa as (a2 & z2 & Ea2 & Ez2 & Et2).
    assert (Lsp : forall d ws sp, doc_words wc d ws -> doc_spans wc d sp -> List.length ws = List.length sp).
    { intros d ws0 sp0 W0 S0'. destruct (doc_toks u d 0 ws0 sp0 W0 S0') as [_ F2]. clear -F2. induction F2; cbn; congruence. }
    assert (L1 : (j + k * m < List.length ws)%nat) by (rewrite (Lsp _ _ _ W Sp); apply nth_error_Some; congruence).
    assert (L2 : (a + k * m < List.length dws)%nat) by (rewrite (Lsp _ _ _ Wd Sd); apply nth_error_Some; congruence).
    assert (Eb : blot_of H k m (firstn (S (j + k * m)) ws) = blot_of H k m (firstn (S (a + k * m)) dws)).
    { apply blot_of_stretch; auto; [exact (co_k _ _ _ _ C)|].
      destruct (stretch_words u dat ws sp j (k * m) a1 z1 W Sp Ea1 Ez1) as (r1 & T1 & <-).
      destruct (stretch_words u (d_dat x) dws dsp a (k * m) a2 z2 Wd Sd Ea2 Ez2) as (r2 & T2 & <-).
      rewrite <- Et1 in T1. rewrite <- Et2 in T2. rewrite (text_same _ _ _ T1 T2). reflexivity. }
    set (q := blot_of H k m (firstn (S (j + k * m)) ws) mod space).
    assert (C1 : carries H k m n ws q (j + k * m)) by (split; [lia|reflexivity]).
    assert (C2 : carries H k m n dws q (a + k * m)) by (split; [lia|unfold q; rewrite Eb; reflexivity]).
    split.
    - exists q, (N.of_nat (S i)). split; [eauto|]. split; [|reflexivity]. rewrite at_blot_held by eauto.
      destruct (nth_Forall2 _ _ _ Ww _ _ Ex) as (ws' & Ew' & W'). cbn [snd] in W'.
      replace (N.of_nat (S i)) with (0 + 1 + N.of_nat i) by lia. eapply carriers_nth; [exact Ew'|].
      unfold has_blot. apply existsb_exists.
      assert (ws' = dws) as ->. { destruct W' as [(r & T & ->)|(NT & ->)], Wd as [(r' & T' & ->)|(NT' & ->)]; [rewrite (text_same _ _ _ T T'); reflexivity|exfalso; eapply NT'; eauto|exfalso; eapply NT; eauto|reflexivity]. }
      destruct (proj2 (spec_blots_carries H k m n dws q) (ex_intro _ _ C2)) as (b & Hb & Eq). exists b. split; [exact Hb|]. apply N.eqb_eq, Eq.
    - exists (d_dat x), dws, dsp, q, t. split; [exact If|]. split; [exact Wd|]. split; [exact Sd|]. split.
      + exists j. split; [exact C1|]. split; [apply La, C1|]. exists a1, z1. auto.
      + exists a. split; [exact C2|]. exists a2, z2. auto.
  Qed.

  Lemma last_exists (P : nat -> Prop) (dec : forall j, P j \/ ~ P j) : forall b i, P i -> (i < b)%nat ->
    exists j, P j /\ (j < b)%nat /\ forall j', (j < j' < b)%nat -> ~ P j'.
  Proof.
    induction b as [|b IH]; intros i Pi Li; [lia|]. destruct (dec b) as [Pb|Nb].
    - exists b. split; [exact Pb|]. split; [lia|]. intros j' ?. lia.
    - destruct (IH i Pi) as (j & Pj & Lj & La); [destruct (Nat.eq_dec i b); [subst; contradiction|lia]|].
      exists j. split; [exact Pj|]. split; [lia|]. intros j' L'. destruct (Nat.eq_dec j' b); [subst; exact Nb|apply La; lia].
  Qed.
  (** A copy of the whole file is always reported. *)
  Theorem like_finds_copies ss dk ix grow fs fuel fname dat ws :
    history u c ss dk -> docs_fit (all_docs ss) -> open_index sorted dk = Ok ix -> (List.length (all_docs ss) < fuel)%nat ->
    all_in_place fs (all_docs ss) -> doc_words wc dat ws -> (k * m < List.length ws)%nat -> nlen dat < 2 ^ 32 ->
    exists keys, like_file u fs grow ix fuel fname dat = Ok keys /\
      forall i cwd x, nth_error (all_docs ss) i = Some (cwd, x) -> d_dat x = dat -> In (place_of (all_docs ss) (N.of_nat (S i))) keys.
  Proof.
    intros Hi Fit Eo Hfu Ha W Lk Ld. destruct (doc_spans_total u dat) as [sp Sp].
    destruct (like_complete ss dk ix grow fs fuel fname dat ws sp Hi Fit Eo Hfu Ha W Sp Ld) as (keys & E & X).
    exists keys. split; [exact E|]. intros i cwd x Ex Ed.
    assert (Ls : List.length ws = List.length sp) by (destruct (doc_toks u dat 0 ws sp W Sp) as [_ F2]; clear -F2; induction F2; cbn; congruence).
    set (q0 := blot_of H k m (firstn (S (k * m)) ws) mod space).
    destruct (last_exists (fun j => carries H k m n ws q0 j)) with (b := List.length ws) (i := (k * m)%nat) as (j & Cj & Lj & La).
    { intros j. unfold carries. destruct (le_dec (k * m) j), (lt_dec j (List.length ws)), (N.eq_dec (blot_of H k m (firstn (S j) ws) mod space) q0); tauto || (right; intros [[? ?] ?]; lia || contradiction). }
    { split; [lia|reflexivity]. }
    { lia. }
    pose proof Cj as [Bj Ej]. destruct (nth_some sp (j - k * m) ltac:(lia)) as [a Ea]. destruct (nth_some sp j ltac:(lia)) as [z Ez].
    assert (Wj : window dat sp (j - k * m) (sub (fst a) (snd z) dat)).
    { exists a, z. replace (j - k * m + k * m)%nat with j by lia. auto. }
    apply (X i cwd x ws sp Ex) with (j := (j - k * m)%nat) (a := (j - k * m)%nat) (t := sub (fst a) (snd z) dat); try (rewrite Ed; assumption); [exact Wj|].
    replace (j - k * m + k * m)%nat with j by lia. intros q [_ Cq] j' L' C'. assert (q = q0) as -> by congruence.
    pose proof C' as [B' _]. apply (La j'); [lia|exact C'].
  Qed.
End L3.
