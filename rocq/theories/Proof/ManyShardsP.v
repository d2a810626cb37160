(** Numbers of shards from 65536 on. *)
From Verif Require Import Model.Base Model.Utf8 Model.Token Model.Blotter Model.Post Model.Address Model.Config Model.Index Model.Query Model.Cmd.
From Verif Require Import Spec.Text Spec.Fingerprint Spec.Configs.
From Verif Require Import Proof.Tactics Proof.TokenP Proof.BlotterP Proof.ShatterP Proof.IndexP Proof.CmdP.
Local Open Scope N_scope.

Lemma space_any c k m n : cfg_ok c k m n -> blot_space c = N.of_nat n mod 65536 * 65536.
Proof.
  intros C. unfold blot_space. rewrite (co_shards _ _ _ _ C).
  replace (Z.to_N (Z.of_nat n mod 4294967296)) with (N.of_nat n mod 4294967296) by (rewrite <- nat_N_Z, <- (N2Z.inj_mod _ 4294967296), N2Z.id; reflexivity).
  unfold u32. rewrite N.mod_mod by discriminate. rewrite N.mul_mod_idemp_l by discriminate.
  change 4294967296 with (65536 * 65536). rewrite N.mul_mod_distr_r by discriminate. reflexivity.
Qed.

Section Many.
  Variable u : unicode.
  Variables (c : config) (k m n : nat).
  Hypothesis C : cfg_ok c k m n.

  Lemma find_zero q all : blot_space c = 0 -> forall toks i hist b, blotter_inv u k m hist b ->
    (i <= cf_seqlen c < i + Z.of_nat (length toks))%Z -> find_blot_loop u c q all b i toks = Panic.
  Proof.
    intros Z0. induction toks as [|t toks IH]; intros i hist b I L; cbn [find_blot_loop length] in *; [lia|].
    destruct (blotter_step u k m hist b (t_lit t) I) as (b' & E & I'). rewrite E. cbn [bind].
    destruct (Z.ltb_spec i (cf_seqlen c)); [eapply IH; [exact I'|lia]|]. rewrite Z0. reflexivity.
  Qed.
  Lemma finds_zero mm dat all : blot_space c = 0 -> forall toks i hist b res, blotter_inv u k m hist b ->
    (i <= cf_seqlen c < i + Z.of_nat (length toks))%Z -> find_blots_loop u c mm dat all b i toks res = Panic.
  Proof.
    intros Z0. induction toks as [|t toks IH]; intros i hist b res I L; cbn [find_blots_loop length] in *; [lia|].
    destruct (blotter_step u k m hist b (t_lit t) I) as (b' & E & I'). rewrite E. cbn [bind].
    destruct (Z.ltb_spec i (cf_seqlen c)); [eapply IH; [exact I'|lia]|]. rewrite Z0. reflexivity.
  Qed.
  Lemma find_beyond q all : blot_space c <> 0 -> blot_space c <= q -> forall toks i b r, find_blot_loop u c q all b i toks <> Ok r.
  Proof.
    intros N0 Q. induction toks as [|t toks IH]; intros i b r; cbn [find_blot_loop]; [discriminate|].
    destruct (blotter_blot u b (t_lit t)) as [[b' x]| | |]; cbn [bind]; try discriminate.
    destruct (i <? cf_seqlen c)%Z; [apply IH|]. destruct (N.eqb_spec (blot_space c) 0); [contradiction|].
    destruct (N.eqb_spec (x mod blot_space c) q) as [E|]; cbn [negb]; [|apply IH].
    exfalso. pose proof (N.mod_lt x _ N0). lia.
  Qed.

  Lemma seqlen_toks d ws : doc_words (word_char u) (d_dat d) ws -> (k * m < length ws)%nat ->
    (0 <= cf_seqlen c < 0 + Z.of_nat (length (filter is_word (tokenize u (d_dat d) (d_start d)))))%Z.
  Proof.
    intros W L. rewrite <- (doc_words_tok u _ (d_start d) _ W), map_length in L. rewrite (co_seqlen _ _ _ _ C). lia.
  Qed.

  Theorem many_panic d ws : N.of_nat n mod 65536 = 0 -> doc_words (word_char u) (d_dat d) ws -> (k * m < length ws)%nat ->
    (forall q, find_blot u c q d = Panic) /\ (forall mm, find_blots u c mm d = Panic).
  Proof.
    intros Z W L. assert (Z0 : blot_space c = 0) by (rewrite (space_any _ _ _ _ C), Z; reflexivity).
    destruct (idx_blotter_ok u c k m n C) as (b & Eb & I). pose proof (seqlen_toks d ws W L) as B.
    split; intros x; [unfold find_blot|unfold find_blots]; rewrite (idx_tokenize_ok u c k m n _ _ C); cbn [bind]; rewrite Eb; cbn [bind].
    - eapply find_zero; eauto.
    - eapply finds_zero; eauto.
  Qed.
  Theorem many_commands fname dat ws : N.of_nat n mod 65536 = 0 -> doc_words (word_char u) dat ws -> (k * m < length ws)%nat ->
    blot_file u c false fname dat = Panic /\
    forall fs grow ix fuel, ix_cfg ix = c -> like_file u fs grow ix fuel fname dat = Panic.
  Proof.
    intros Z W L. assert (Z0 : blot_space c = 0) by (rewrite (space_any _ _ _ _ C), Z; reflexivity).
    pose proof (blot_doc_spec u c k m n [] (MkDoc fname 0 (u32 (nlen dat)) dat) ws C W) as Eb. cbn [app] in Eb.
    pose proof (spec_blots_len k m (word_hash u) ws) as Ls.
    destruct (spec_blots (word_hash u) k m ws) as [|b bl] eqn:Es; [cbn [length] in Ls; lia|].
    split.
    - unfold blot_file. rewrite Eb. cbn [bind blot_lines]. rewrite Z0. reflexivity.
    - intros fs grow ix fuel E. unfold like_file. rewrite E, Eb. cbn [bind]. rewrite (idx_tokenize_ok u c k m n _ _ C). cbn [bind like_texts].
      assert (T : forall toks i, tok_range c toks i = Panic \/ exists x, tok_range c toks i = Ok x).
      { intros toks i. unfold tok_range, tok_at. destruct (i <? 0)%Z; [left; reflexivity|]. destruct (nth_error toks _); [|left; reflexivity]. cbn [bind].
        destruct (_ <? 0)%Z; [left; reflexivity|]. destruct (nth_error toks _); [|left; reflexivity]. right. eexists. reflexivity. }
      destruct (T (words_first (tokenize u dat 0)) 0%Z) as [-> | [[x y] ->]]; cbn [bind]; [reflexivity|]. rewrite Z0. reflexivity.
  Qed.
  Theorem many_not_found d q r : N.of_nat n mod 65536 <> 0 -> N.of_nat n mod 65536 * 65536 <= q -> find_blot u c q d <> Ok r.
  Proof.
    intros Z Q. destruct (idx_blotter_ok u c k m n C) as (b & Eb & I). pose proof (space_any _ _ _ _ C) as S.
    unfold find_blot. rewrite (idx_tokenize_ok u c k m n _ _ C). cbn [bind]. rewrite Eb. cbn [bind]. apply find_beyond; lia.
  Qed.
End Many.
