(** Whole runs of blot -offsets and of inspect. *)
From Coq Require Import String QArith Qabs.
From Verif Require Import Model.Base Model.Utf8 Model.Path Model.Float Model.Token Model.Blotter Model.Config Model.Index Model.Query
  Model.Session Model.Crash Model.Root Model.Args Model.Flags Model.Verbs Model.Options Model.Walk Model.Stats Model.Cmd Model.Hex Model.Json Model.Output Model.Inspect Model.Program.
From Verif Require Import Spec.Text Spec.Fingerprint Spec.Configs Spec.Paths Spec.Querying Spec.History Spec.Hexes Spec.Mean Spec.Printed Spec.Str Spec.Cmdline Spec.Inspected Spec.Program.
From Verif Require Import Proof.Tactics Proof.Utf8P Proof.TokenP Proof.BlotterP Proof.BlotsP Proof.ShatterP Proof.IndexP Proof.SessionP Proof.SessionP2 Proof.OutputP Proof.HexP Proof.CmdP Proof.LikeP Proof.LikeP2 Proof.LikeP3 Proof.LikeP4 Proof.ProgramP Proof.ProgramP2 Props.Verbs Props.Stats Props.Inspect.
Local Open Scope N_scope.
Local Open Scope list_scope.

Lemma same_nodes a b : Forall2 same a b -> tree_nodes a = tree_nodes b.
Proof.
  intros F. unfold tree_nodes. f_equal. f_equal. f_equal. induction F as [|x y a b (_ & E & _) F IH]; [reflexivity|].
  cbn [map]. unfold tree_path at 1 3. rewrite E, IH. reflexivity.
Qed.
Lemma same_len a b : Forall2 same a b -> nlen a = nlen b.
Proof. unfold nlen. induction 1; cbn [List.length]; lia. Qed.

Section Reads.
  Variables (u : unicode) (sorted : list N -> list nat) (grow : nat -> nat) (fuse : bool) (wild : float -> Z) (fixed : bool).
  Notation run := (dupi u sorted grow fuse wild fixed).
  Section Held.
    Variables (root : bytes) (n : nat) (docs : list (bytes * doc)) (wss : list (list bytes)) (w : world) (R : bytes).
    Hypothesis Sorts : sorts sorted.
    Hypothesis Hd : holds u root n docs (at_dirs w root).
    Hypothesis Fit : docs_fit docs.
    Hypothesis Ww : words_of (word_char u) docs wss.
    Hypothesis Rt : rooted (at_cwd w).
    Hypothesis Er : root_of w R = root.

    Lemma inspect_run iargs args json : command w R "inspect" iargs args -> asks_inspect iargs json ->
      let l := per_blot (word_hash u) 1 10 n wss in
      exists mean sigma out, inspected json root n docs (pairs (word_hash u) 1 10 n wss) mean sigma out /\
        (Qabs (mean - average l) <= 2 ^ (-51) * average l /\
         (1 - 2 ^ (-35)) * variance l <= sigma * sigma <= (1 + 2 ^ (-35)) * (variance l + (2 ^ (-51) * average l) * (2 ^ (-51) * average l)))%Q /\
        forall st out' w', run w args st out' w' <-> st = 0 /\ out' = out /\ w' = w.
    Proof.
      intros C (os & rest & files & A) l. pose proof (command_main _ _ _ _ _ C ltac:(do 4 right; left; reflexivity)) as M.
      assert (Ta : inspect_args iargs = Take (json, files)) by (apply C72_inspect; eauto).
      destruct (held_opens u sorted root n docs wss w R Sorts Hd Fit Ww Rt Er) as (c & ss & dk & ix & F & H & Sm & Fit' & Ww' & Eo & Ea & Ec & V).
      assert (RA := runs_answers u sorted grow fuse wild fixed w args (bs "inspect") iargs R ix M ltac:(discriminate)).
      specialize (RA ltac:(intros st [[S _]|[[S _]|[[S _]|[[S _]|[[S _]|[_ S]]]]]]; [discriminate S..|congruence]) Ea).
      assert (RR : forall t, inspect fuse json ix = (t, 0) -> forall st out' w', run w args st out' w' <-> st = 0 /\ out' = t /\ w' = w).
      { intros t Et st out' w'. rewrite RA. split.
        - intros [-> Aw]. inversion Aw as [| | | |l0 j0 f0 ix0 Ta']; subst. rewrite Ta in Ta'. injection Ta' as <- <-. rewrite Et. auto.
        - intros (-> & -> & ->). split; [reflexivity|]. replace t with (fst (inspect fuse json ix)) by (rewrite Et; reflexivity).
          replace 0 with (snd (inspect fuse json ix)) by (rewrite Et; reflexivity). eapply answers_inspect, Ta. }
      destruct json.
      - destruct (C74_json u c 1 10 n sorted F Sorts (cv_root _ V) ss dk wss H Fit' Ww') as (ix' & E & X). rewrite Eo in E. injection E as <-.
        destruct (X fuse) as (mean & sigma & t & v & Et & Ev & Sh & B). exists mean, sigma, t. rewrite Ec, (same_nodes _ _ Sm), (same_len _ _ Sm) in Sh.
        split; [exists v; auto|]. split; [exact B|]. apply RR, Et.
      - destruct (C74_plain u c 1 10 n sorted F Sorts ss dk wss H Fit' Ww') as (ix' & E & X). rewrite Eo in E. injection E as <-.
        destruct (X fuse) as (mean & sigma & t & Et & Sh & B). exists mean, sigma, t. rewrite Ec, (same_nodes _ _ Sm), (same_len _ _ Sm) in Sh.
        split; [exact Sh|]. split; [exact B|]. apply RR, Et.
    Qed.

    (** * blot -offsets *)
    Lemma nth_same {A} (a b : list A) : List.length a = List.length b -> (forall i x y, nth_error a i = Some x -> nth_error b i = Some y -> x = y) -> a = b.
    Proof.
      revert b. induction a as [|x a IH]; intros [|y b] L X; try discriminate L; [reflexivity|]. f_equal; [apply (X 0%nat); reflexivity|].
      apply IH; [cbn in L; lia|]. intros i. apply (X (S i)).
    Qed.
    Lemma offsets_lines c f dat ws t : cfg_full c 1 10 n -> doc_words (word_char u) dat ws -> at_file w f = Some dat -> nlen dat < 2 ^ 32 ->
      exists lines, blot_file u c true f dat = Ok lines /\ (offsets_of (word_hash u) (word_char u) n w f t <-> t = concat (map blot_line lines)).
    Proof.
      intros [C Hn Hf] W Ef Ld. destruct (blot_offsets u c 1 10 n C Hn f dat ws W Ld) as (lines & E & Em & V). exists lines. split; [exact E|].
      pose proof (co_n _ _ _ _ C) as Hp.
      assert (Ll : List.length lines = List.length (spec_blots (word_hash u) 1 10 ws)) by (rewrite <- (map_length fst lines), Em, map_length; reflexivity).
      assert (K : forall i b, nth_error (spec_blots (word_hash u) 1 10 ws) i = Some b -> exists rs, is_text dat rs /\
        let size j := N.of_nat (List.length (utf8s (concat (map snd (firstn j (runs (word_char u) (removelast rs))))))) in
        size i < 2 ^ 32 /\ size (11 + i)%nat < 2 ^ 32 /\
        nth_error (map blot_line lines) i = Some (print_hex (b mod (N.of_nat n * 65536)) ++ bs " " ++ print_dec (size i) ++ bs ":" ++ print_dec (size (11 + i)%nat) ++ [10])).
      { intros i b Eb. destruct (nth_error lines i) as [[b' r]|] eqn:El; [|apply nth_error_None in El; assert (i < List.length (spec_blots (word_hash u) 1 10 ws))%nat by (apply nth_error_Some; congruence); lia].
        assert (Eb' : b' = b mod (N.of_nat n * 65536)).
        { assert (X : nth_error (map fst lines) i = Some b') by (rewrite nth_error_map, El; reflexivity). rewrite Em, nth_error_map, Eb in X. cbn in X. congruence. }
        destruct (V _ _ _ El) as (rs & T & Er' & Lr). cbv zeta in Er'. exists rs. split; [exact T|]. cbv zeta.
        assert (B : forall j, N.of_nat (List.length (utf8s (concat (map snd (firstn j (runs (word_char u) (removelast rs))))))) < 2 ^ 32).
        { intros j. eapply N.le_lt_trans; [|exact Ld]. unfold nlen. match goal with |- N.of_nat ?a <= N.of_nat ?b => cut (a <= b)%nat; [lia|] end. destruct T as [_ ->]. transitivity (List.length (utf8s (removelast rs))).
          - rewrite <- (runs_cat (word_char u) (removelast rs)) at 2. rewrite <- (firstn_skipn j (runs (word_char u) (removelast rs))) at 2. unfold cat.
            rewrite map_app, concat_app, utf8s_app, app_length. lia.
          - destruct (removelast_app_last rs) as [->|[x ->]]; [cbn; lia|]. rewrite removelast_last, utf8s_app, app_length. lia. }
        split; [apply B|]. split; [apply B|]. rewrite nth_error_map, El. cbn [option_map]. unfold blot_line. cbn [fst snd]. rewrite Eb', Er'.
        replace (S (i + 1 * 10))%nat with (11 + i)%nat by lia. rewrite <- !app_assoc. reflexivity. }
      assert (Ph : forall b, numeral hexadecimal (print_hex (b mod (N.of_nat n * 65536))) (b mod (N.of_nat n * 65536))).
      { intros b. apply print_hex_numeral. pose proof (N.mod_lt b (N.of_nat n * 65536) ltac:(lia)). lia. }
      split.
      - intros (dat' & ws' & ls & Ef' & W' & Lls & Z & ->). rewrite Ef in Ef'. injection Ef' as <-. rewrite (words_fun u dat ws' ws W' W) in *. f_equal.
        apply nth_same; [rewrite map_length; congruence|]. intros i x y Ex Ey.
        destruct (nth_error (spec_blots (word_hash u) 1 10 ws) i) as [b|] eqn:Eb.
        2:{ apply nth_error_None in Eb. assert (i < List.length ls)%nat by (apply nth_error_Some; congruence). lia. }
        destruct (Z _ _ Eb) as (rs & d & s & e & T & Nd & Ns & Ne & Ei). destruct (K _ _ Eb) as (rs' & T' & B1 & B2 & Ei').
        rewrite (text_same dat rs rs' T T') in *. rewrite Ex in Ei. rewrite Ey in Ei'. injection Ei as ->. injection Ei' as ->.
        rewrite (numeral_text hexadecimal ltac:(cbn; lia) _ _ Nd _ (Ph b)).
        rewrite (numeral_text Printed.decimal ltac:(cbn; lia) _ _ Ns _ (print_dec_numeral _ B1)), (numeral_text Printed.decimal ltac:(cbn; lia) _ _ Ne _ (print_dec_numeral _ B2)).
        reflexivity.
      - intros ->. exists dat, ws, (map blot_line lines). split; [exact Ef|]. split; [exact W|]. cbv zeta. split; [rewrite map_length; exact Ll|]. split; [|reflexivity].
        intros i b Eb. destruct (K _ _ Eb) as (rs & T & B1 & B2 & Ei). cbv zeta in B1, B2, Ei. exists rs. do 3 eexists. split; [exact T|].
        split; [apply Ph|]. split; [apply print_dec_numeral, B1|]. split; [apply print_dec_numeral, B2|exact Ei].
    Qed.

    Notation said := (fun f t => offsets_of (word_hash u) (word_char u) n w f t \/ at_file w f = None /\ t = []).
    Lemma offsets_files c ix files : cfg_full c 1 10 n -> ix_cfg ix = c -> Forall (fun f => forall dat, at_file w f = Some dat -> nlen dat < 2 ^ 32) files ->
      (exists outs, Forall2 said files outs) /\
      forall out, blot_prints u w ix true files out <-> exists outs, Forall2 said files outs /\ out = concat outs.
    Proof.
      intros F Ec. induction 1 as [|f files Lf Fl ((outs & Ho) & IH)].
      - split; [exists []; constructor|]. intros out. split.
        + intros P. inversion P. exists []. split; [constructor|reflexivity].
        + intros (outs & Fo & ->). inversion Fo. constructor.
      - destruct (at_file w f) as [dat|] eqn:Ef.
        + destruct (doc_words_total u dat) as [ws W].
          destruct (offsets_lines c f dat ws [] F W Ef (Lf _ eq_refl)) as (lines & Eb & _). rewrite <- Ec in Eb.
          assert (Bl : forall t, offsets_of (word_hash u) (word_char u) n w f t <-> t = concat (map blot_line lines)).
          { intros t. destruct (offsets_lines c f dat ws t F W Ef (Lf _ eq_refl)) as (lines' & Eb' & X). rewrite <- Ec in Eb'. rewrite Eb in Eb'. injection Eb' as <-. exact X. }
          split.
          { eexists. constructor; [|exact Ho]. left. apply Bl. reflexivity. }
          intros out. split.
          * intros P. inversion P as [|f' r' dat' ls' out' Ef' E' P'|f' r' out' En P']; subst; [|congruence].
            rewrite Ef in Ef'. injection Ef' as <-. rewrite Eb in E'. injection E' as <-. apply IH in P' as (outs' & Fo' & ->).
            eexists (_ :: outs'). split; [|reflexivity]. constructor; [|exact Fo']. left. apply Bl. reflexivity.
          * intros (outs' & Fo' & ->). inversion Fo' as [|? t ? outs1 [X|[En _]] Fo1]; subst; [|congruence].
            apply Bl in X. subst t. cbn [concat]. eapply blot_next; [exact Ef|exact Eb|]. apply IH. eauto.
        + split; [exists ([] :: outs); constructor; [right; auto|exact Ho]|]. intros out. split.
          * intros P. inversion P as [|f' r' dat' ls' out' Ef' E' P'|f' r' out' En P']; subst; [congruence|].
            apply IH in P' as (outs' & Fo' & ->). exists ([] :: outs'). split; [constructor; [right; auto|exact Fo']|reflexivity].
          * intros (outs' & Fo' & ->). inversion Fo' as [|? t ? outs1 [(dat' & ws' & ls & Ef' & _)|[En ->]] Fo1]; subst; [congruence|].
            cbn [concat app]. apply blot_missing; [exact Ef|]. apply IH. eauto.
    Qed.
    Lemma offsets_run bargs files args : command w R "blot" bargs args -> asks_blot bargs true files ->
      Forall (fun f => forall dat, at_file w f = Some dat -> nlen dat < 2 ^ 32) files ->
      (exists outs, Forall2 said files outs) /\
      forall st out w', run w args st out w' <-> st = 0 /\ w' = w /\ exists outs, Forall2 said files outs /\ out = concat outs.
    Proof.
      intros C A Lf. pose proof (command_main _ _ _ _ _ C ltac:(do 2 right; left; reflexivity)) as M.
      assert (Ta : blot_args bargs = Take (true, files)) by (apply C72_blot; exact A).
      destruct (held_open u sorted root n docs wss w R Sorts Hd Fit Ww Rt Er) as (c & ss & dk & ix & F & H & Sm & Fit' & Ww' & Eo & Ea).
      assert (RA := runs_answers u sorted grow fuse wild fixed w args (bs "blot") bargs R ix M ltac:(discriminate)).
      specialize (RA ltac:(intros st [[S _]|[[S _]|[[_ S]|[[S _]|[[S _]|[S _]]]]]]; [discriminate S..|congruence|discriminate S|discriminate S|discriminate S]) Ea).
      destruct (offsets_files c ix files F (opened_cfg u c 1 10 n sorted F ss dk ix H Fit' Eo) Lf) as (X & Y). split; [exact X|].
      intros st out w'. rewrite RA. split.
      - intros [-> Aw]. inversion Aw as [| | |l0 o0 fl ix0 out0 Ta' P|]; subst. rewrite Ta in Ta'. injection Ta' as <- <-. apply Y in P. auto.
      - intros (-> & -> & Z). split; [reflexivity|]. eapply answers_blot; [exact Ta|]. apply Y. auto.
    Qed.
  End Held.
End Reads.
