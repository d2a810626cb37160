(** The like command: what it reports. *)
From Verif Require Import Model.Base Model.Utf8 Model.Token Model.Blotter Model.Shatter Model.Config Model.Conc Model.Index Model.Query Model.Session Model.Cmd.
From Verif Require Import Spec.Text Spec.Fingerprint Spec.Configs Spec.Querying Spec.History Spec.Reading Spec.Paths Spec.Stretch.
From Verif Require Import Proof.Tactics Proof.Utf8P Proof.TokenP Proof.BlotterP Proof.ShatterP Proof.IndexP Proof.IndexP2 Proof.FindP Proof.BlotsP Proof.QueryP Proof.SessionP Proof.SessionP2 Proof.CmdP Proof.StretchP Proof.LikeP.
Local Open Scope N_scope.

Lemma in_file_load fs path start end_ dat : in_file fs (path, start, end_) dat ->
  exists d, doc_load fs path start end_ = Ok d /\ d_dat d = dat /\ d_start d = start.
Proof.
  intros (content & before & after & Ef & Ec & Hc). unfold doc_load. rewrite Ef.
  destruct Hc as [(-> & -> & -> & ->)|(Hlt & Hb & E1 & E2)].
  - cbn [N.eqb andb]. eexists. split; [reflexivity|]. cbn [d_dat d_start]. rewrite Ec. cbn [app]. rewrite app_nil_r. auto.
  - destruct (N.eqb_spec end_ 0); [lia|]. rewrite andb_false_r.
    assert (Es : sub32 end_ start = end_ - start).
    { unfold sub32, u32. change (2 ^ 32) with 4294967296 in Hb. clear -Hb Hlt.
      replace (end_ + 4294967296 - start) with (end_ - start + 1 * 4294967296) by lia. rewrite N.mod_add by lia. apply N.mod_small. lia. }
    rewrite Es. unfold pread. destruct (Z.ltb_spec (Z.of_N start) 0); [lia|]. destruct (Z.leb_spec (Z.of_N (end_ - start)) 0); [lia|].
    unfold zlen, nlen in *. destruct (Z.leb_spec (Z.of_N start + Z.of_N (end_ - start)) (Z.of_nat (length content))) as [_|G].
    + eexists. split; [reflexivity|]. cbn [d_dat d_start]. split; [|reflexivity]. rewrite Ec.
      rewrite skipn_app_exact by lia. apply firstn_app_exact. lia.
    + rewrite Ec, !app_length in G. lia.
Qed.
Lemma tmap_nonempty (rm : tmap) : rm <> [] <-> exists q t, tget q rm = Some t.
Proof.
  split.
  - destruct rm as [|[q t] rm]; [congruence|]. intros _. exists q, t. cbn [tget]. rewrite N.eqb_refl. reflexivity.
  - intros (q & t & E) ->. discriminate.
Qed.

Section L2.
  Context (u : unicode) (c : config) (k m n : nat).
  Hypothesis C : cfg_ok c k m n.
  Hypothesis Hn : N.of_nat n < 65536.
  Notation H := (word_hash u).
  Notation wc := (word_char u).
  Notation space := (N.of_nat n * 65536).
  Notation window := (stretch (k * m)).

  Lemma window_nonempty dat sp i t : doc_spans wc dat sp -> window dat sp i t -> t <> [].
  Proof.
    intros S (a & z & Ea & Ez & ->). destruct (doc_words_total u dat) as [ws W].
    destruct (stretch_words u dat ws sp i (k * m) a z W S Ea Ez) as (rs & [_ T] & Ew). intros E. rewrite E in T.
    destruct (doc_toks u dat 0 ws sp W S) as [_ F2].
    assert (Ls : length ws = length sp) by (clear -F2; induction F2; cbn; congruence).
    assert (Lz : (i + k * m < length sp)%nat) by (apply nth_error_Some; congruence).
    assert (rs = []) as ->. { destruct rs as [|r rs]; [reflexivity|]. pose proof (utf8s_nonempty (r :: rs) ltac:(discriminate)) as X. rewrite <- T in X. cbn in X. lia. }
    cbn in Ew. assert (X : length (sub i (i + Datatypes.S (k * m)) ws) = Datatypes.S (k * m)) by (unfold sub; rewrite firstn_length, skipn_length; lia).
    rewrite <- Ew in X. cbn in X. lia.
  Qed.

  (** C45: what is reported is there. *)
  Theorem like_sound fs grow ix fuel fname dat sp keys : ix_cfg ix = c -> doc_spans wc dat sp -> nlen dat < 2 ^ 32 ->
    like_file u fs grow ix fuel fname dat = Ok keys ->
    forall path start end_, In (path, start, end_) keys ->
    exists content before txt after i, fs path = Some content /\ content = before ++ txt ++ after /\ window dat sp i txt /\ txt <> [] /\
      (start <= end_ -> end_ < 2 ^ 32 -> start <= nlen before /\ (0 < end_ -> nlen before + nlen txt <= end_)).
  Proof.
    intros Ec S Ld E path start end_ I. destruct (doc_words_total u dat) as [ws W].
    destruct (like_map u c k m n C Hn fname dat ws sp W S Ld) as (bm & Em & V). rewrite (Em fs grow ix fuel Ec) in E.
    apply (like_loop_ok u c k m n C Hn fs grow ix bm Ec fuel _ _ _ E) in I. destruct I as [[]|[_ (rm & El & Hne)]].
    apply tmap_nonempty in Hne. destruct Hne as (q & t & Et). unfold load_find_blots in El.
    destruct (doc_load fs path start end_) as [d|e| |] eqn:Ed; try discriminate. cbn [bind] in El. rewrite Ec in El.
    destruct (find_blots_only_equal u c k m n C Hn bm d rm q t El Et) as (Eb & b2 & a2 & Eq).
    destruct (V q) as [[_ X]|(i & t' & _ & _ & Wt & X)]; [congruence|]. assert (t' = t) as -> by congruence.
    pose proof (window_nonempty dat sp i t S Wt) as Nt.
    destruct (doc_load_spec _ _ _ _ _ Ed) as (_ & _ & content & b1 & a1 & Ef & Econt & Hc).
    exists content, (b1 ++ b2), t, (a2 ++ a1), i. split; [exact Ef|]. split; [rewrite Econt, Eq, <- !app_assoc; reflexivity|].
    split; [exact Wt|]. split; [exact Nt|]. intros L1 L2. destruct Hc as [(-> & -> & -> & ->)|(_ & Hc)]; [split; lia|].
    destruct (Hc L1 L2) as [Z|[E1 E2]].
    - exfalso. rewrite Eq in Z. destruct b2; [destruct t; [congruence|discriminate]|discriminate].
    - rewrite Eq in E2. unfold nlen in *. rewrite !app_length in *. split; lia.
  Qed.

  Notation last_window := (last_window H k m n).
  Notation some_window := (some_window H k m n).
  (** Exactly what is reported, if all documents looked at are where they should be. *)
  Theorem like_exact fs grow ix content place fuel fname dat ws sp : ix_cfg ix = c -> index_ok ix n content place ->
    (forall q, (length (at_blot n content q) < fuel)%nat) ->
    doc_words wc dat ws -> doc_spans wc dat sp -> nlen dat < 2 ^ 32 ->
    (forall q id, (exists i, carries H k m n ws q i) -> In id (at_blot n content q) ->
       exists path end_ ddat, place id = (path, 0, end_) /\ in_file fs (path, 0, end_) ddat /\ nlen ddat < 2 ^ 32) ->
    exists keys, like_file u fs grow ix fuel fname dat = Ok keys /\
      forall key, In key keys <->
        (exists q id, (exists i, carries H k m n ws q i) /\ In id (at_blot n content q) /\ key = place id) /\
        exists ddat dws dsp q t, in_file fs key ddat /\ doc_words wc ddat dws /\ doc_spans wc ddat dsp /\
          last_window dat ws sp q t /\ some_window ddat dws dsp q t.
  Proof.
    intros Ec I Hf W S Ld Hl. destruct (like_map u c k m n C Hn fname dat ws sp W S Ld) as (bm & Em & V). setoid_rewrite (Em fs grow ix fuel Ec).
    assert (Q : forall b, exists ds, query_get grow ix fuel b None = Ok ds /\ docs_keys ds = map place (at_blot n content b)).
    { intros b. destruct (get_unlimited grow ix _ n _ I b fuel) as (ds & Eg & _ & El); [exact (Hf b)|].
      exists ds. split; [exact Eg|]. unfold docs_keys. rewrite El, map_map. apply map_ext. intros d. unfold key_doc, doc_key. destruct (place d) as [[p a] z]. reflexivity. }
    assert (B : forall b, In b (spec_blots H k m ws) -> exists i, carries H k m n ws (b mod space) i).
    { intros b Hb. apply spec_blots_carries. eauto. }
    assert (LU : forall b key, looked_up n grow ix fuel b key <-> exists id, In id (at_blot n content (b mod space)) /\ key = place id).
    { intros b key. unfold looked_up. destruct (Q (b mod space)) as (ds & Eq & Ek). split.
      - intros (ds' & Eq' & Hin). assert (ds' = ds) as -> by congruence. rewrite Ek in Hin. apply in_map_iff in Hin. destruct Hin as (id & <- & Hi). eauto.
      - intros (id & Hi & ->). exists ds. split; [exact Eq|]. rewrite Ek. apply in_map, Hi. }
    assert (G : forall path end_ ddat dws dsp, in_file fs (path, 0, end_) ddat -> nlen ddat < 2 ^ 32 ->
       doc_words wc ddat dws -> doc_spans wc ddat dsp ->
       exists rm, load_find_blots u fs ix bm (path, 0, end_) = Ok rm /\
         (rm <> [] <-> exists q t, last_window dat ws sp q t /\ some_window ddat dws dsp q t)).
    { intros path end_ ddat dws dsp If Lx Wd Sd. unfold load_find_blots. destruct (in_file_load _ _ _ _ _ If) as (d & -> & Ed & E0). cbn [bind]. rewrite Ec.
      destruct (find_blots_exact u c k m n C Hn bm d dws dsp) as (rm & -> & X); try (rewrite Ed; assumption); [exact E0|].
      exists rm. split; [reflexivity|]. rewrite tmap_nonempty. split.
      - intros (q & t & Et). exists q, t. apply X in Et. destruct Et as (Eb & i & a & z & Ci & Ea & Ez & Es). split.
        + destruct (V q) as [[_ Y]|(i' & t' & Ci' & La & Wt & Y)]; [congruence|]. assert (t' = t) as -> by congruence. exists i'. auto.
        + pose proof Ci as [Li _]. exists (i - k * m)%nat. replace (i - k * m + k * m)%nat with i by lia. split; [exact Ci|].
          exists a, z. replace (i - k * m + k * m)%nat with i by lia. rewrite Ed in Es. auto.
      - intros (q & t & (i & Ci & La & Wt) & (i' & Ci' & (a & z & Ea & Ez & Es))). exists q, t. apply X. split.
        + destruct (V q) as [[No _]|(i2 & t2 & Ci2 & La2 & Wt2 & Y)]; [exfalso; eapply No; eauto|].
          assert (i2 = i) as ->.
          { destruct (Nat.lt_trichotomy i i2) as [Lt|[|Gt]]; [exfalso; apply (La (i2 + k * m)%nat); [lia|exact Ci2]|congruence|
              exfalso; apply (La2 (i + k * m)%nat); [lia|exact Ci]]. }
          destruct Wt as (a1 & z1 & A1 & A2 & ->). destruct Wt2 as (a2 & z2 & A3 & A4 & ->). congruence.
        + exists (i' + k * m)%nat, a, z. split; [exact Ci'|]. replace (i' + k * m - k * m)%nat with i' by lia. rewrite Ed. auto. }
    assert (Hg : forall key, (exists b, In b (spec_blots H k m ws) /\ looked_up n grow ix fuel b key) ->
       exists path end_ ddat, key = (path, 0, end_) /\ in_file fs key ddat /\ nlen ddat < 2 ^ 32).
    { intros key (b & Hb & Lu). apply LU in Lu. destruct Lu as (id & Hi & ->).
      destruct (Hl (b mod space) id (B b Hb) Hi) as (path & end_ & ddat & Ep & If & Lx). exists path, end_, ddat. rewrite Ep. auto. }
    destruct (like_loop_succeeds u c k m n C Hn fs grow ix bm Ec fuel (spec_blots H k m ws)) with (found := @nil (bytes * N * N)) as [keys E].
    { intros b _. destruct (Q (b mod space)) as (ds & Eq & _). eauto. }
    { intros b key Hb Lu. destruct (Hg key ltac:(eauto)) as (path & end_ & ddat & -> & If & Lx).
      destruct (doc_words_total u ddat) as [dws Wd]. destruct (doc_spans_total u ddat) as [dsp Sd].
      destruct (G path end_ ddat dws dsp If Lx Wd Sd) as (rm & Er & _). eauto. }
    exists keys. split; [exact E|]. intros key. rewrite (like_loop_ok u c k m n C Hn fs grow ix bm Ec fuel _ _ _ E). split.
    - intros [[]|[Hb (rm & Er & Hne)]]. destruct (Hg key Hb) as (path & end_ & ddat & Ek & If & Lx). subst key.
      destruct (doc_words_total u ddat) as [dws Wd]. destruct (doc_spans_total u ddat) as [dsp Sd].
      destruct (G path end_ ddat dws dsp If Lx Wd Sd) as (rm' & Er' & Y). assert (rm' = rm) as -> by congruence.
      apply Y in Hne. destruct Hne as (q & t & A1 & A2). split.
      + destruct Hb as (b & Hb & Lu). apply LU in Lu. destruct Lu as (id & Hi & Ek). exists (b mod space), id. auto.
      + exists ddat, dws, dsp, q, t. auto.
    - intros [(q & id & Cq & Hi & ->) (ddat & dws & dsp & q' & t & If & Wd & Sd & A1 & A2)]. right.
      assert (Hb : exists b, In b (spec_blots H k m ws) /\ looked_up n grow ix fuel b (place id)).
      { apply spec_blots_carries in Cq. destruct Cq as (b & Hb & <-). exists b. split; [exact Hb|]. apply LU. eauto. }
      split; [exact Hb|]. destruct (Hg _ Hb) as (path & end_ & ddat' & Ep & If' & Lx). rewrite Ep in *.
      assert (ddat' = ddat) as ->.
      { destruct (in_file_load _ _ _ _ _ If) as (d & E1 & <- & _). destruct (in_file_load _ _ _ _ _ If') as (d' & E2 & <- & _). congruence. }
      destruct (G path end_ ddat dws dsp If Lx Wd Sd) as (rm & Er & Y). exists rm. split; [exact Er|]. apply Y. eauto.
  Qed.
End L2.
