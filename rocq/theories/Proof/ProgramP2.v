(** Whole runs of dupi that read. *)
From Coq Require Import String QArith Qabs Permutation Lqa.
From Verif Require Import Model.Base Model.Utf8 Model.Path Model.Float Model.Token Model.Blotter Model.Config Model.Index Model.Query
  Model.Session Model.Crash Model.Root Model.Args Model.Flags Model.Verbs Model.Options Model.Walk Model.Extract Model.Stats Model.Cmd Model.Hex Model.Output Model.Program.
From Verif Require Import Spec.Text Spec.Fingerprint Spec.Configs Spec.Paths Spec.Tree Spec.Reading Spec.Querying Spec.History Spec.Stretch Spec.Hexes Spec.Mean Spec.Printed Spec.Str Spec.Cmdline Spec.Program.
From Verif Require Import Proof.Tactics Proof.PathP Proof.TokenP Proof.BlotterP Proof.ArgsP Proof.FlagsP Proof.VerbsP Proof.WalkP Proof.SessionP Proof.SessionP2 Proof.RootP Proof.OptionsP Proof.FuelP Proof.FloatP Proof.StatsP3 Proof.StatsP4 Proof.OutputP Proof.OutputP2 Proof.ShatterP Proof.IndexP Proof.HexP Proof.StretchP Proof.FindP Proof.CmdP Proof.LikeP Proof.LikeP2 Proof.LikeP3 Proof.LikeP4 Proof.UnblotP Proof.ProgramP Props.Verbs Props.Stats.
Local Open Scope N_scope.
Local Open Scope list_scope.

(** * What is printed *)
Lemma doc_line_shows p s e : s < 2 ^ 32 -> e < 2 ^ 32 -> shows_place (p, s, e) (doc_line (p, s, e)).
Proof. intros A B. constructor; apply print_dec_numeral; assumption. Qed.
Definition small_key (key : place) : Prop := snd (fst key) < 2 ^ 32 /\ snd key < 2 ^ 32.
Lemma doc_lines_show ps : Forall small_key ps -> Forall2 shows_place ps (map doc_line ps).
Proof. induction 1 as [|[[p s] e] ps [A B] F IH]; cbn [map]; constructor; [apply doc_line_shows; assumption|exact IH]. Qed.
Lemma numeral_text ds : (0 < List.length ds)%nat -> forall v s, numeral ds s v -> forall s', numeral ds s' v -> s = s'.
Proof.
  intros L v s Hs. assert (Dg : forall d c, nth_error ds (N.to_nat d) = Some c -> d < N.of_nat (List.length ds)).
  { intros d c E. assert (N.to_nat d < List.length ds)%nat by (apply nth_error_Some; congruence). lia. }
  induction Hs as [c d Ed|s v c d Hs IH Nv Ed]; intros s' Hs';
    [remember d as x eqn:Ex|remember (N.of_nat (List.length ds) * v + d) as x eqn:Ex]; destruct Hs' as [c' d' Ed'|s' v' c' d' Hs' Nv' Ed']; pose proof (Dg _ _ Ed); pose proof (Dg _ _ Ed').
  - subst d'. congruence.
  - exfalso. nia.
  - exfalso. nia.
  - assert (v' = v /\ d' = d) as [-> ->]; [|rewrite (IH _ Hs'); congruence].
    assert (E1 : (N.of_nat (List.length ds) * v + d) / N.of_nat (List.length ds) = v) by (symmetry; apply (N.div_unique _ _ v d); lia).
    assert (E2 : (N.of_nat (List.length ds) * v' + d') / N.of_nat (List.length ds) = v') by (symmetry; apply (N.div_unique _ _ v' d'); lia).
    assert (v' = v) by congruence. split; [assumption|]. subst v'. lia.
Qed.
Lemma place_text p a b : shows_place p a -> shows_place p b -> a = b.
Proof.
  intros [p' s e s1 e1 Hs He] B. inversion B as [p2 s' e' s2 e2 Hs' He']; subst.
  rewrite (numeral_text Printed.decimal ltac:(cbn; lia) _ _ Hs _ Hs'), (numeral_text Printed.decimal ltac:(cbn; lia) _ _ He _ He'). reflexivity.
Qed.
Lemma places_text ps a b : Forall2 shows_place ps a -> Forall2 shows_place ps b -> a = b.
Proof. intros A. revert b. induction A as [|p x ps a H A IH]; intros b B; inversion B; subst; [reflexivity|]. f_equal; [eapply place_text; eassumption|auto]. Qed.

Lemma like_text_shows f ps : Forall small_key ps -> forall t, shows_like f ps t <-> t = like_text f ps.
Proof.
  intros F t. pose proof (doc_lines_show ps F) as D. split.
  - intros (ls & E & ->). rewrite (places_text _ _ _ E D). reflexivity.
  - intros ->. exists (map doc_line ps). split; [exact D|reflexivity].
Qed.
Lemma unblot_text_shows g : Forall small_key (snd g) -> forall t, shows_text g t <-> t = unblot_text g.
Proof.
  intros F t. pose proof (doc_lines_show _ F) as D. split.
  - intros (ls & E & ->). rewrite (places_text _ _ _ E D). reflexivity.
  - intros ->. exists (map doc_line (snd g)). split; [exact D|reflexivity].
Qed.
Lemma unblot_texts_show gs : Forall (fun g => Forall small_key (snd g)) gs -> forall ts, Forall2 shows_text gs ts <-> ts = map unblot_text gs.
Proof.
  induction 1 as [|g gs H F IH]; intros ts; cbn [map].
  - split; [intros A; inversion A; reflexivity|intros ->; constructor].
  - split.
    + intros A. inversion A as [|? t ? ts' X Y]; subst. apply (unblot_text_shows _ H) in X. apply IH in Y. congruence.
    + intros ->. constructor; [apply (unblot_text_shows _ H); reflexivity|apply IH; reflexivity].
Qed.
Lemma blot_lines_show n bs : (0 < n)%nat -> N.of_nat n < 65536 -> forall ls,
  Forall2 (fun b l => exists d, numeral hexadecimal d (b mod (N.of_nat n * 65536)) /\ l = d ++ [10]) bs ls <->
  ls = map blot_line (map (fun b => (b mod (N.of_nat n * 65536), None)) bs).
Proof.
  intros Hn Hb. assert (P : forall b, numeral hexadecimal (print_hex (b mod (N.of_nat n * 65536))) (b mod (N.of_nat n * 65536))).
  { intros b. apply print_hex_numeral. pose proof (N.mod_lt b (N.of_nat n * 65536) ltac:(lia)). lia. }
  induction bs as [|b bs IH]; intros ls; cbn [map].
  - split; [intros A; inversion A; reflexivity|intros ->; constructor].
  - unfold blot_line at 1. cbn [fst snd app]. split.
    + intros A. inversion A as [|? t ? ts' (d & X & ->) Y]; subst. rewrite (numeral_text hexadecimal ltac:(cbn; lia) _ _ X _ (P b)). apply IH in Y. congruence.
    + intros ->. constructor; [eauto|apply IH; reflexivity].
Qed.


(** A deviation that is not too large. *)
Lemma moderate_fits x mean sigma v : (0 <= sigma -> sigma * sigma <= (1 + 2 ^ (-35)) * v -> x * x * v <= 2 ^ 124 -> mean <= 2 ^ 34 -> mean + Qabs x * sigma <= 2 ^ 63 - 2 ^ 13)%Q.
Proof.
  intros S0 S2 B M. set (y := (Qabs x * sigma)%Q). assert (Y0 : (0 <= y)%Q) by (apply Qmult_le_0_compat; [apply Qabs_nonneg|exact S0]).
  assert (Y2 : (y * y <= (1 + 2 ^ (-35)) * 2 ^ 124)%Q).
  { assert (Ex : (Qabs x * Qabs x == x * x)%Q) by (rewrite <- Qabs_Qmult; apply Qabs_pos; destruct x as [[|p|p] d]; unfold Qle; cbn; lia).
    setoid_replace (y * y)%Q with ((x * x) * (sigma * sigma))%Q by (unfold y; rewrite <- Ex; ring).
    apply Qle_trans with ((x * x) * ((1 + 2 ^ (-35)) * v))%Q.
    - rewrite <- Ex. rewrite !(Qmult_comm (Qabs x * Qabs x)). apply Qmult_le_compat_r; [exact S2|]. apply Qmult_le_0_compat; apply Qabs_nonneg.
    - setoid_replace (x * x * ((1 + 2 ^ (-35)) * v))%Q with ((1 + 2 ^ (-35)) * (x * x * v))%Q by ring. apply Qmult_le_l; [reflexivity|exact B]. }
  assert (Yb : (y <= 2 ^ 62 + 2 ^ 40)%Q).
  { apply Qnot_lt_le. intros C. assert (((2 ^ 62 + 2 ^ 40) * (2 ^ 62 + 2 ^ 40) <= y * y)%Q) by (apply Qmult_le_compat_nonneg; split; try (apply Qlt_le_weak; exact C); vm_compute; discriminate).
    assert (K : ((1 + 2 ^ (-35)) * 2 ^ 124 < (2 ^ 62 + 2 ^ 40) * (2 ^ 62 + 2 ^ 40))%Q) by (vm_compute; reflexivity). lra. }
  assert (K : (2 ^ 34 + (2 ^ 62 + 2 ^ 40) <= 2 ^ 63 - 2 ^ 13)%Q) by (vm_compute; discriminate). lra.
Qed.

Section Reads.
  Variables (u : unicode) (sorted : list N -> list nat) (grow : nat -> nat) (fuse : bool) (wild : float -> Z) (fixed : bool).
  Notation run := (dupi u sorted grow fuse wild fixed).

  (** Runs of a verb that reads an index that can be opened. *)
  Lemma runs_answers w args v largs root ix : main args (at_env w) (at_home w) = RunVerb v largs root ->
    v <> bs "index" -> (forall st, ~ stops v largs st) -> open_index_at sorted (at_dirs w) (at_cwd w) root = Ok ix ->
    forall st out w', run w args st out w' <-> w' = w /\ answers u grow fuse wild w v largs ix out st.
  Proof.
    intros M Ni Ns Eo st out w'. split.
    - intros R. destruct R as [M'|v' l' r' st M' S|v' l' r' e M' S Eo'|v' l' r' ix' out st M' Eo' S|l' r' o' p' M' T' Rf|l' r' o' p' x ws err docs dk M' T' G D Se];
        rewrite M in M'; try discriminate M'; injection M' as Ev <- <-; try subst v'.
      + exfalso. eapply Ns, S.
      + exfalso. congruence.
      + split; [reflexivity|]. congruence.
      + exfalso. apply Ni. exact Ev.
      + exfalso. apply Ni. exact Ev.
    - intros [-> A]. eapply dupi_answers; eassumption.
  Qed.

  Section Held.
    Variables (root : bytes) (n : nat) (docs : list (bytes * doc)) (wss : list (list bytes)) (w : world) (R : bytes).
    Hypothesis Sorts : sorts sorted.
    Hypothesis Hd : holds u root n docs (at_dirs w root).
    Hypothesis Fit : docs_fit docs.
    Hypothesis Ww : words_of (word_char u) docs wss.
    Hypothesis Rt : rooted (at_cwd w).
    Hypothesis Er : root_of w R = root.

    Lemma held_opens : exists c ss dk ix, cfg_full c 1 10 n /\ history u c ss dk /\ Forall2 same (all_docs ss) docs /\ docs_fit (all_docs ss) /\
      words_of (word_char u) (all_docs ss) wss /\ open_index sorted dk = Ok ix /\ open_index_at sorted (at_dirs w) (at_cwd w) R = Ok ix /\
      cf_root c = root /\ cfg_values c.
    Proof.
      destruct Hd as (c & ss & dk & F & V & Hs & H & Ec & Ed & Sm).
      pose proof (same_fit _ _ Sm Fit) as Fit'. pose proof (same_words _ _ _ _ Sm Ww) as Ww'.
      pose proof F as [O Hn' Hf]. destruct (history_inv u c 1 10 n O Hn' Hf _ _ H Fit' wss Ww') as (fn & fs & D).
      destruct (open_index_ok u c 1 10 n O Hn' sorted Sorts _ _ _ _ _ D Ww' Fit') as (ix & Eo & _).
      exists c, ss, dk, ix. do 6 (split; [assumption|]). split; [|auto].
      unfold root_of in Er. rewrite <- path_abs_spec in Er by exact Rt.
      destruct (in_place u c 1 10 n F V ss dk (at_dirs w) (at_cwd w) R H) with (sorted := sorted) as [-> _]; [congruence|congruence|exact Eo].
    Qed.
    Lemma held_open : exists c ss dk ix, cfg_full c 1 10 n /\ history u c ss dk /\ Forall2 same (all_docs ss) docs /\ docs_fit (all_docs ss) /\
      words_of (word_char u) (all_docs ss) wss /\ open_index sorted dk = Ok ix /\ open_index_at sorted (at_dirs w) (at_cwd w) R = Ok ix.
    Proof. destruct held_opens as (c & ss & dk & ix & F & H & Sm & F' & W' & Eo & Ea & _). exists c, ss, dk, ix. do 6 (split; [assumption|]). exact Ea. Qed.

    Lemma extract_run eargs args json x only : command w R "extract" eargs args -> asks_extract eargs json x only -> moderate (per_blot (word_hash u) 1 10 n wss) x ->
      exists T es out, threshold (per_blot (word_hash u) 1 10 n wss) x T /\ frequent (word_hash u) 1 10 n docs wss T es /\ printed json only docs es out /\
        forall st out' w', run w args st out' w' <-> st = 0 /\ out' = out /\ w' = w.
    Proof.
      intros C A Bx. pose proof (command_main _ _ _ _ _ C ltac:(right; left; reflexivity)) as M.
      assert (Ta : extract_args eargs = Take (json, Fin x, only)) by (apply C72_extract; exact A).
      destruct held_open as (c & ss & dk & ix & F & H & Sm & Fit' & Ww' & Eo & Ea).
      assert (RA := runs_answers w args (bs "extract") eargs R ix M ltac:(discriminate)).
      specialize (RA ltac:(intros st [[S _]|[[_ S]|[[S _]|[[S _]|[[S _]|[S _]]]]]]; [discriminate S|congruence|discriminate S..]) Ea).
      destruct (C66_mean_and_sigma u c 1 10 n sorted F Sorts ss dk wss H Fit' Ww') as (ix1 & E1 & X1). rewrite Eo in E1. injection E1 as <-.
      destruct (X1 fuse) as (mean & sigma & Em & M0 & M1 & Es & S0 & S1 & S2).
      destruct (history_counts u c 1 10 n sorted F Sorts ss dk wss H Fit' Ww') as (ix2 & E2 & Ln & Hn & Hc & _). rewrite Eo in E2. injection E2 as <-.
      set (T := extract_threshold fuse wild (Fin x) ix).
      destruct (prints_frequent u c 1 10 n sorted F Sorts ss dk wss H Fit' Ww') as (ix3 & E3 & X3). rewrite Eo in E3. injection E3 as <-.
      destruct (X3 grow (Datatypes.S (List.length (all_docs ss))) ltac:(lia) json T) as (k' & calls & out & Ex & Fr & Fo & P).
      exists T, (map entry_of out), (extract_text json only out). split; [|split; [|split]].
      - exists mean, sigma. do 5 (split; [assumption|]). apply (threshold_fits ix n Ln Hn Hc fuse wild (Fin x) x mean sigma); [apply is_fin|rewrite Em; apply is_fin|rewrite Es; apply is_fin|].
        destruct Bx as [Bx|Bx]; [apply (small_fits ix n Ln Hn Hc fuse x mean sigma); [rewrite Em; apply is_fin|rewrite Es; apply is_fin|exact Bx]|].
        destruct (stats_bounds ix n Ln Hn Hc fuse mean sigma) as (_ & M2 & _ & _); [rewrite Em; apply is_fin|rewrite Es; apply is_fin|].
        eapply moderate_fits; [exact S0|exact S2|exact Bx|exact M2].
      - eapply same_frequent; eassumption.
      - unfold printed. destruct json.
        + intros Tp. specialize (P text_path ltac:(exists []; split; [constructor|reflexivity]) (same_paths _ _ _ Sm Tp)).
          destruct (entries_read out) as (vs & F1 & F2).
          { rewrite Forall_forall in *. intros e He. destruct (Fo e He) as (A1 & B1 & C1). auto. }
          exists vs. split; [exact F2|]. unfold extract_text. apply stream_reads; [exact F1|lia].
        + destruct (plain_shows out) as [L1 L2]; [eapply Forall_impl; [|exact Fo]; intros e (_ & A1); exact A1|]. destruct only; assumption.
      - intros st out' w'. rewrite RA. split.
        + intros [-> Aw]. inversion Aw as [l0 j0 s0 o0 ix0 fuel k0 c0 out0 Ta' Ex' Ev| | | |]; subst. rewrite Ta in Ta'. injection Ta' as <- <- <-.
          assert (Eq : Ok out = Ok out0) by (eapply extract_same; [exact Ex|discriminate|exact Ex'|discriminate]). injection Eq as <-. auto.
        + intros (-> & -> & ->). split; [reflexivity|]. eapply answers_extract; [exact Ta|exact Ex].
    Qed.

    (** * like *)
    Lemma same_alike a b dat key : Forall2 same a b -> alike (word_hash u) (word_char u) n a dat key -> alike (word_hash u) (word_char u) n b dat key.
    Proof.
      intros Sm (i & cwd & x & ws & sp & dws & dsp & q & t & Ei & -> & X). destruct (nth_Forall2 _ _ _ Sm _ _ Ei) as ([cwd' x'] & Ei' & (_ & _ & Ed & _)).
      cbn [snd] in Ed. rewrite Ed in X. exists i, cwd', x', ws, sp, dws, dsp, q, t. split; [exact Ei'|]. split; [apply same_place, Sm|exact X].
    Qed.
    Lemma same_sym a b : Forall2 same a b -> Forall2 same b a.
    Proof. induction 1 as [|x y a b (P & Q & S & T & U) F IH]; constructor; [|exact IH]. unfold same. split; [tauto|]. split; [congruence|]. split; [congruence|]. split; congruence. Qed.
    Lemma same_in_place fs a b : Forall2 same a b -> all_in_place fs b -> all_in_place fs a.
    Proof.
      intros Sm A i cwd x Ei. destruct (nth_Forall2 _ _ _ Sm _ _ Ei) as ([cwd' x'] & Ei' & (_ & _ & Ed & Es & _)). cbn [snd] in Ed, Es.
      destruct (A _ _ _ Ei') as (B1 & B2 & B3). rewrite Ed, Es, (same_place _ _ _ Sm). auto.
    Qed.
    Lemma place_small a id : docs_fit a -> small_key (place_of a id).
    Proof.
      intros [A _ _]. unfold place_of. destruct (nth_error a (N.to_nat (id - 1))) as [[cwd x]|] eqn:E; [|split; reflexivity].
      rewrite Forall_forall in A. destruct (A _ (nth_error_In _ _ E)) as (_ & B & C). split; assumption.
    Qed.

    Section Opened.
      Variables (c : config) (ss : list (list (bytes * doc))) (dk : disk) (ix : index).
      Hypothesis F : cfg_full c 1 10 n.
      Hypothesis Hi : history u c ss dk.
      Hypothesis Sm : Forall2 same (all_docs ss) docs.
      Hypothesis Fit' : docs_fit (all_docs ss).
      Hypothesis Ww' : words_of (word_char u) (all_docs ss) wss.
      Hypothesis Eo : open_index sorted dk = Ok ix.
      Notation here := (reports (word_hash u) (word_char u) n docs w).

      Lemma like_one f dat : all_in_place (at_file w) docs -> nlen dat < 2 ^ 32 -> exists fuel keys, like_file u (at_file w) grow ix fuel f dat = Ok keys /\ NoDup keys /\
        (forall key, In key keys <-> alike (word_hash u) (word_char u) n docs dat key) /\ Forall small_key keys.
      Proof.
        intros Ap Ld. destruct (doc_words_total u dat) as [ws W]. destruct (doc_spans_total u dat) as [sp Sp].
        destruct (like_exactly u c 1 10 n sorted F Sorts ss dk ix grow (at_file w) (Datatypes.S (List.length (all_docs ss))) f dat ws sp Hi Fit' Eo ltac:(lia) (same_in_place _ _ _ Sm Ap) W Sp Ld)
          as (keys & E & ND & X).
        exists (Datatypes.S (List.length (all_docs ss))), keys. split; [exact E|]. split; [exact ND|].
        assert (Y : forall key, In key keys <-> alike (word_hash u) (word_char u) n (all_docs ss) dat key).
        { intros key. rewrite X. split.
          - intros (i & cwd & x & dws & dsp & q & t & A1 & A2 & A3 & A4 & A5 & A6). exists i, cwd, x, ws, sp, dws, dsp, q, t. auto 10.
          - intros (i & cwd & x & ws' & sp' & dws & dsp & q & t & A1 & A2 & A3 & A3' & A4 & A5 & A6).
            rewrite (words_fun u dat ws' ws A3 W) in A6. rewrite (spans_fun u dat sp' sp A3' Sp) in A6. exists i, cwd, x, dws, dsp, q, t. auto 10. }
        split.
        - intros key. rewrite Y. split; apply same_alike; [exact Sm|apply same_sym, Sm].
        - apply Forall_forall. intros key Hk. apply Y in Hk. destruct Hk as (i & cwd & x & ws' & sp' & dws & dsp & q & t & _ & -> & _). apply place_small, Fit'.
      Qed.
      Lemma like_files files : all_in_place (at_file w) docs -> Forall (fun f => exists dat, at_file w f = Some dat /\ nlen dat < 2 ^ 32) files ->
        (exists outs, Forall2 here files outs) /\
        forall out st, like_prints u grow w ix files out st <-> st = 0 /\ exists outs, Forall2 here files outs /\ out = concat outs.
      Proof.
        intros Ap. induction 1 as [|f files (dat & Ef & Ld) Fo ((outs & Ho) & IH)].
        - split; [exists []; constructor|]. intros out st. split.
          + intros P. inversion P. split; [reflexivity|]. exists []. split; [constructor|reflexivity].
          + intros (-> & outs & Fo & ->). inversion Fo. constructor.
        - destruct (like_one f dat Ap Ld) as (fuel & keys & E & ND & X & Sk). split.
          { exists (like_text f keys :: outs). constructor; [|exact Ho]. exists dat, keys. split; [exact Ef|]. split; [exact ND|]. split; [exact X|]. apply like_text_shows; auto. }
          intros out st. split.
          + intros P. inversion P as [|f' r' dat' fuel' keys0 keys' out' st' Ef' E' Pm P'|f' r' En|f' r' dat' fuel' e Ef' E']; subst.
            * rewrite Ef in Ef'. injection Ef' as <-. assert (Eq : Ok keys = Ok keys0) by (eapply like_same; [exact E|discriminate|exact E'|discriminate]). injection Eq as <-.
              apply IH in P' as (-> & outs' & Fo' & ->). split; [reflexivity|]. exists (like_text f keys' :: outs'). split; [|reflexivity]. constructor; [|exact Fo'].
              exists dat, keys'. split; [exact Ef|]. split; [eapply Permutation_NoDup; eassumption|]. split.
              -- intros key. rewrite <- X. split; apply Permutation_in; [apply Permutation_sym, Pm|exact Pm].
              -- apply like_text_shows; [|reflexivity]. eapply Permutation_Forall; eassumption.
            * congruence.
            * exfalso. rewrite Ef in Ef'. injection Ef' as <-. assert (Eq : Ok keys = Err e) by (eapply like_same; [exact E|discriminate|exact E'|discriminate]). discriminate Eq.
          + intros (-> & outs' & Fo' & ->). inversion Fo' as [|? t ? outs1 (dat' & ps & Ef' & ND' & X' & Sh) Fo1]; subst. rewrite Ef in Ef'. injection Ef' as <-.
            assert (Pm : Permutation keys ps) by (apply NoDup_Permutation; [exact ND|exact ND'|]; intros key; rewrite X, X'; reflexivity).
            apply like_text_shows in Sh; [|eapply Permutation_Forall; eassumption]. subst t. cbn [concat].
            eapply like_next; [exact Ef|exact E|exact Pm|]. apply IH. split; [reflexivity|]. exists outs1. auto.
      Qed.

      (** * blot *)
      Notation said := (fun f t => blots_of (word_hash u) (word_char u) n w f t \/ at_file w f = None /\ t = []).
      Lemma blot_files files : (exists outs, Forall2 said files outs) /\
        forall out, blot_prints u w ix false files out <-> exists outs, Forall2 said files outs /\ out = concat outs.
      Proof.
        pose proof (opened_cfg u c 1 10 n sorted F ss dk ix Hi Fit' Eo) as Ec. pose proof F as [C Hn Hf]. pose proof (co_n _ _ _ _ C) as Hp.
        induction files as [|f files ((outs & Ho) & IH)].
        - split; [exists []; constructor|]. intros out. split.
          + intros P. inversion P. exists []. split; [constructor|reflexivity].
          + intros (outs & Fo & ->). inversion Fo. constructor.
        - destruct (at_file w f) as [dat|] eqn:Ef.
          + destruct (doc_words_total u dat) as [ws W]. pose proof (blot_plain u c 1 10 n C Hn f dat ws W) as Eb. rewrite <- Ec in Eb.
            pose proof (blot_lines_show n (spec_blots (word_hash u) 1 10 ws) Hp Hn) as Bl. split.
            { eexists. constructor; [|exact Ho]. left. exists dat, ws. eexists. split; [exact Ef|]. split; [exact W|]. split; [apply Bl; reflexivity|reflexivity]. }
            intros out. split.
            * intros P. inversion P as [|f' r' dat' ls' out' Ef' E' P'|f' r' out' En P']; subst; [|congruence].
              rewrite Ef in Ef'. injection Ef' as <-. rewrite Eb in E'. injection E' as <-. apply IH in P' as (outs' & Fo' & ->).
              eexists (_ :: outs'). split; [|reflexivity]. constructor; [|exact Fo']. left. exists dat, ws. eexists. split; [exact Ef|]. split; [exact W|]. split; [apply Bl; reflexivity|reflexivity].
            * intros (outs' & Fo' & ->). inversion Fo' as [|? t ? outs1 [(dat' & ws' & ls & Ef' & W' & Sh & ->)|[En _]] Fo1]; subst; [|congruence].
              rewrite Ef in Ef'. injection Ef' as <-. rewrite (words_fun u dat ws' ws W' W) in Sh. apply Bl in Sh. subst ls. cbn [concat].
              eapply blot_next; [exact Ef|exact Eb|]. apply IH. eauto.
          + split; [exists ([] :: outs); constructor; [right; auto|exact Ho]|]. intros out. split.
            * intros P. inversion P as [|f' r' dat' ls' out' Ef' E' P'|f' r' out' En P']; subst; [congruence|].
              apply IH in P' as (outs' & Fo' & ->). exists ([] :: outs'). split; [constructor; [right; auto|exact Fo']|reflexivity].
            * intros (outs' & Fo' & ->). inversion Fo' as [|? t ? outs1 [(dat' & ws' & ls & Ef' & _)|[En ->]] Fo1]; subst; [congruence|].
              cbn [concat app]. apply blot_missing; [exact Ef|]. apply IH. eauto.
      Qed.

      (** * unblot *)
      Lemma keys_concat x os : keys_with x (outcomes os) =
        concat (map (fun o : option (bytes * place) => match o with Some (y, sh) => if list_eq_dec N.eq_dec y x then [sh] else [] | None => [] end) os).
      Proof.
        unfold keys_with, outcomes. induction os as [|[[y sh]|] os IH]; cbn [map concat app]; [reflexivity| |exact IH].
        cbn [filter fst]. rewrite <- IH. destruct (list_eq_dec N.eq_dec y x) as [->|Ne].
        - rewrite (proj2 (eq_bytes_iff x x) eq_refl). reflexivity.
        - destruct (eq_bytes y x) eqn:E; [apply eq_bytes_iff in E; contradiction|reflexivity].
      Qed.
      Notation there := (fun q os => Forall2 (fun id o => outcome (word_hash u) 1 10 n (word_char u) (at_file w) q (place_of docs id) o) (carriers (word_hash u) 1 10 n 0 wss q) os).
      Definition grouped (all : bool) (os : list (option (bytes * place))) (g : list (bytes * list place)) : Prop :=
        NoDup (map fst g) /\ forall x l, In (x, l) g <-> l <> [] /\ (all = true \/ (2 <= List.length l)%nat) /\
         l = concat (map (fun o => match o with Some (y, sh) => if list_eq_dec N.eq_dec y x then [sh] else [] | None => [] end) os).
      Hypothesis Rd : forall i, (i < List.length docs)%nat -> readable (at_file w) (place_of docs (N.of_nat (S i))).
      Lemma there_fun q a b : there q a -> there q b -> a = b.
      Proof.
        clear Er. generalize (carriers (word_hash u) 1 10 n 0 wss q). intros L A. revert b. induction A as [|id o L' a X A IH]; intros b B; inversion B; subst; [reflexivity|].
        f_equal; [eapply outcome_fun; eassumption|auto].
      Qed.
      Lemma in_keys x sh os : In sh (keys_with x (outcomes os)) -> In (Some (x, sh)) os.
      Proof.
        rewrite keys_concat. intros I. apply in_concat in I as (l & I & J). apply in_map_iff in I as ([[y sh']|] & <- & I); [|destruct J].
        destruct (list_eq_dec N.eq_dec y x) as [->|]; [|destruct J]. destruct J as [->|[]]. exact I.
      Qed.
      Lemma in_Forall2 {A B} (P : A -> B -> Prop) a b : Forall2 P a b -> forall y, In y b -> exists x, In x a /\ P x y.
      Proof. induction 1 as [|x y a b X T IH]; intros z I; [destruct I|]. destruct I as [->|I]; [exists x; split; [left; reflexivity|exact X]|]. destruct (IH _ I) as (id' & J & K). exists id'. split; [right; exact J|exact K]. Qed.
      Lemma there_small q os x sh : there q os -> In (Some (x, sh)) os -> small_key sh.
      Proof.
        intros T I. assert (exists id, In id (carriers (word_hash u) 1 10 n 0 wss q) /\ outcome (word_hash u) 1 10 n (word_char u) (at_file w) q (place_of docs id) (Some (x, sh))) as (id & Ic & O).
        { apply (in_Forall2 _ _ _ T). exact I. }
        apply carriers_in in Ic. destruct Ic as (i & ws' & -> & Ei & _). replace (0 + 1 + N.of_nat i) with (N.of_nat (S i)) in O by lia.
        eapply (outcome_small u c 1 10 n F); [| |exact O].
        - apply Rd. rewrite <- (words_of_len _ _ _ Ww). apply nth_error_Some. congruence.
        - apply place_small, Fit.
      Qed.
      Lemma filter_nodup_fst {A B} (f : A * B -> bool) l : NoDup (map fst l) -> NoDup (map fst (filter f l)).
      Proof.
        induction l as [|x l IH]; cbn [map filter]; intros ND; [constructor|]. inversion ND; subst. destruct (f x); [|auto]. cbn [map]. constructor; [|auto].
        intros I. apply in_map_iff in I as (y & Ey & I). apply filter_In in I as [I _]. apply H1. rewrite <- Ey. apply in_map, I.
      Qed.
      Lemma unblot_one all q : exists fuel gs os, unblot u (at_file w) grow ix fuel all q = Ok gs /\ there q os /\ grouped all os gs /\
        Forall (fun g => Forall small_key (snd g)) gs.
      Proof.
        assert (Rd' : forall i, (i < List.length (all_docs ss))%nat -> readable (at_file w) (place_of (all_docs ss) (N.of_nat (S i)))).
        { intros i L. rewrite (same_place _ _ _ Sm). apply Rd. rewrite <- (Tactics.Forall2_len _ _ _ Sm). exact L. }
        assert (Gs : forall os gs, there q os -> grouped all os gs -> Forall (fun g => Forall small_key (snd g)) gs).
        { intros os gs T [_ G]. apply Forall_forall. intros [x l] I. apply G in I as (_ & _ & ->). rewrite <- keys_concat. apply Forall_forall. intros sh J.
          eapply there_small; [exact T|eapply in_keys, J]. }
        set (fuel := Datatypes.S (List.length (all_docs ss))). exists fuel. destruct (N.lt_ge_cases q (N.of_nat n * 65536)) as [L|L].
        - destruct (unblot_history u c 1 10 n sorted F Sorts ss dk ix grow (at_file w) fuel q wss Hi Fit' Ww' Eo ltac:(unfold fuel; lia) Rd' L) as (os & g & T & E1 & E2 & ND & X).
          assert (T' : there q os). { eapply Forall2_impl; [|exact T]. intros id o O. cbn beta in O. rewrite (same_place _ _ _ Sm) in O. exact O. }
          assert (G : grouped all os (if all then g else filter (fun p => (2 <=? List.length (snd p))%nat) g)).
          { destruct all.
            - split; [exact ND|]. intros x l. rewrite X, keys_concat. tauto.
            - split; [apply filter_nodup_fst; exact ND|]. intros x l. rewrite filter_In, X, keys_concat. cbn [snd]. rewrite Nat.leb_le. intuition discriminate. }
          exists (if all then g else filter (fun p => (2 <=? List.length (snd p))%nat) g), os. split; [destruct all; assumption|]. split; [exact T'|]. split; [exact G|]. exact (Gs _ _ T' G).
        - exists [], []. split; [apply (unblot_large u c 1 10 n sorted F Sorts ss dk ix grow (at_file w) fuel q all Hi Fit' Eo); [unfold fuel; lia|exact Rd'|exact L]|].
          split; [rewrite (no_carriers u c 1 10 n F _ _ L); constructor|]. split; [|constructor]. split; [constructor|]. intros x l. split; [intros []|]. intros (A & _ & ->). apply A. reflexivity.
      Qed.
      Lemma grouped_perm all os a b : grouped all os a -> grouped all os b -> Permutation a b.
      Proof. intros [A X] [B Y]. apply NoDup_Permutation; [eapply NoDup_map_inv, A|eapply NoDup_map_inv, B|]. intros [x l]. rewrite X, Y. reflexivity. Qed.
      Lemma perm_grouped all os a b : grouped all os a -> Permutation a b -> grouped all os b.
      Proof.
        intros [A X] P. split; [eapply Permutation_NoDup; [apply Permutation_map, P|exact A]|]. intros x l. rewrite <- X. split; apply Permutation_in; [apply Permutation_sym, P|exact P].
      Qed.
      Lemma scan_spells a q : spells a q -> q < 2 ^ 32 -> scan_hex a = Ok q.
      Proof. intros S L. apply scan_exact. exists [], a, []. rewrite app_nil_r. split; [reflexivity|]. split; [exists []; repeat constructor|]. split; [exact S|]. split; [exact L|exact I]. Qed.
      Lemma spells_fun a q q' : spells a q -> spells a q' -> q = q'.
      Proof.
        intros A. revert q'. induction A as [x d D|s v x d A IH D]; intros q' B.
        - remember [x] as s eqn:E. destruct B as [x' d' D'|s v' x' d' B D'].
          + injection E as ->. apply hex_value_spec in D, D'. congruence.
          + exfalso. destruct s; [inversion B; match goal with K : _ ++ _ = [] |- _ => destruct (app_cons_not_nil _ _ _ (eq_sym K)) end|destruct s; discriminate E].
        - remember (s ++ [x]) as t eqn:E. destruct B as [x' d' D'|s' v' x' d' B D'].
          + exfalso. destruct s; [inversion A; match goal with K : _ ++ _ = [] |- _ => destruct (app_cons_not_nil _ _ _ (eq_sym K)) end|destruct s; discriminate E].
          + apply app_inj_tail in E as [-> ->]. rewrite (IH _ B). apply hex_value_spec in D, D'. congruence.
      Qed.
      Notation tells := (texts_of (word_hash u) (word_char u) n docs w wss).
      Lemma unblot_blots all args : Forall (fun a => exists q, spells a q /\ q < 2 ^ 32) args ->
        (exists outs, Forall2 (tells all) args outs) /\
        forall out st, unblot_prints u grow w ix all args out st <-> st = 0 /\ exists outs, Forall2 (tells all) args outs /\ out = concat outs.
      Proof.
        pose proof there_fun as TF. pose proof unblot_one as UO. clear Er. induction 1 as [|a args (q & Sq & Lq) Fo ((outs & Ho) & IH)].
        - split; [exists []; constructor|]. intros out st. split.
          + intros P. inversion P. split; [reflexivity|]. exists []. split; [constructor|reflexivity].
          + intros (-> & outs & Fo & ->). inversion Fo. constructor.
        - destruct (UO all q) as (fuel & gs & os & E & T & G & Sg). pose proof (scan_spells a q Sq Lq) as Ea. split.
          { exists (concat (map unblot_text gs) :: outs). constructor; [|exact Ho]. destruct G as [ND X]. exists q, os, gs, (map unblot_text gs). do 4 (split; [assumption|]). split; [apply unblot_texts_show; auto|reflexivity]. }
          intros out st. split.
          + intros P. inversion P as [|a' r' q' fuel' gs0 gs' out' st' Ea' E' Pm P'|a' r' e Ea'|a' r' q' fuel' e Ea' E']; subst.
            * rewrite Ea in Ea'. injection Ea' as <-. assert (Eq : Ok gs = Ok gs0) by (eapply unblot_same; [exact E|discriminate|exact E'|discriminate]). injection Eq as <-.
              apply IH in P' as (-> & outs' & Fo' & ->). split; [reflexivity|]. exists (concat (map unblot_text gs') :: outs'). split; [|reflexivity]. constructor; [|exact Fo'].
              destruct (perm_grouped _ _ _ _ G Pm) as [ND X]. exists q, os, gs', (map unblot_text gs'). do 4 (split; [assumption|]). split; [|reflexivity].
              apply unblot_texts_show; [|reflexivity]. eapply Permutation_Forall; eassumption.
            * congruence.
            * exfalso. rewrite Ea in Ea'. injection Ea' as <-. assert (Eq : Ok gs = Err e) by (eapply unblot_same; [exact E|discriminate|exact E'|discriminate]). discriminate Eq.
          + intros (-> & outs' & Fo' & ->). inversion Fo' as [|? t ? outs1 (q' & os' & g & ts & Sq' & T' & ND & X & Sh & ->) Fo1]; subst.
            assert (q' = q) as -> by (exact (spells_fun _ _ _ Sq' Sq)). assert (os' = os) as -> by (exact (TF _ _ _ T' T)).
            assert (Pm : Permutation gs g) by (eapply grouped_perm; [exact G|split; [exact ND|exact X]]).
            apply unblot_texts_show in Sh; [|eapply Permutation_Forall; eassumption]. subst ts. cbn [concat].
            eapply unblot_next; [exact Ea|exact E|exact Pm|]. apply IH. split; [reflexivity|]. exists outs1. auto.
      Qed.
    End Opened.

    Lemma like_run files args : command w R "like" files args -> (forall f r, files = f :: r -> positional f) ->
      all_in_place (at_file w) docs -> Forall (fun f => exists dat, at_file w f = Some dat /\ nlen dat < 2 ^ 32) files ->
      (exists outs, Forall2 (reports (word_hash u) (word_char u) n docs w) files outs) /\
      forall st out w', run w args st out w' <-> st = 0 /\ w' = w /\ exists outs, Forall2 (reports (word_hash u) (word_char u) n docs w) files outs /\ out = concat outs.
    Proof.
      intros C Pos Ap Fo. pose proof (command_main _ _ _ _ _ C ltac:(do 5 right; left; reflexivity)) as M.
      assert (Ta : like_args files = Take files) by (apply like_positional; exact Pos).
      destruct held_open as (c & ss & dk & ix & F & H & Sm & Fit' & Ww' & Eo & Ea).
      assert (RA := runs_answers w args (bs "like") files R ix M ltac:(discriminate)).
      specialize (RA ltac:(intros st [[S _]|[[S _]|[[S _]|[[S _]|[[_ S]|[S _]]]]]]; [discriminate S..|congruence|discriminate S]) Ea).
      destruct (like_files c ss dk ix F H Sm Fit' Eo files Ap Fo) as (X & Y). split; [exact X|].
      intros st out w'. rewrite RA. split.
      - intros [-> Aw]. inversion Aw as [|l0 fl ix0 out0 st0 Ta' P| | |]; subst. rewrite Ta in Ta'. injection Ta' as <-. apply Y in P as (-> & Z). auto.
      - intros (-> & -> & Z). split; [reflexivity|]. eapply answers_like; [exact Ta|]. apply Y. auto.
    Qed.

    Notation said := (fun f t => blots_of (word_hash u) (word_char u) n w f t \/ at_file w f = None /\ t = []).
    Lemma blot_run bargs files args : command w R "blot" bargs args -> asks_blot bargs false files ->
      (exists outs, Forall2 said files outs) /\
      forall st out w', run w args st out w' <-> st = 0 /\ w' = w /\ exists outs, Forall2 said files outs /\ out = concat outs.
    Proof.
      intros C A. pose proof (command_main _ _ _ _ _ C ltac:(do 2 right; left; reflexivity)) as M.
      assert (Ta : blot_args bargs = Take (false, files)) by (apply C72_blot; exact A).
      destruct held_open as (c & ss & dk & ix & F & H & Sm & Fit' & Ww' & Eo & Ea).
      assert (RA := runs_answers w args (bs "blot") bargs R ix M ltac:(discriminate)).
      specialize (RA ltac:(intros st [[S _]|[[S _]|[[_ S]|[[S _]|[[S _]|[S _]]]]]]; [discriminate S..|congruence|discriminate S|discriminate S|discriminate S]) Ea).
      destruct (blot_files c ss dk ix F H Fit' Eo files) as (X & Y). split; [exact X|].
      intros st out w'. rewrite RA. split.
      - intros [-> Aw]. inversion Aw as [| | |l0 o0 fl ix0 out0 Ta' P|]; subst. rewrite Ta in Ta'. injection Ta' as <- <-. apply Y in P. auto.
      - intros (-> & -> & Z). split; [reflexivity|]. eapply answers_blot; [exact Ta|]. apply Y. auto.
    Qed.
    Lemma unblot_run uargs all blots args : command w R "unblot" uargs args -> asks_unblot uargs all blots ->
      (forall i, (i < List.length docs)%nat -> readable (at_file w) (place_of docs (N.of_nat (S i)))) ->
      Forall (fun a => exists q, spells a q /\ q < 2 ^ 32) blots ->
      (exists outs, Forall2 (texts_of (word_hash u) (word_char u) n docs w wss all) blots outs) /\
      forall st out w', run w args st out w' <-> st = 0 /\ w' = w /\ exists outs, Forall2 (texts_of (word_hash u) (word_char u) n docs w wss all) blots outs /\ out = concat outs.
    Proof.
      intros C A Rd Fo. pose proof (command_main _ _ _ _ _ C ltac:(do 3 right; left; reflexivity)) as M.
      assert (Ta : Verbs.unblot_args uargs = Take (all, blots)) by (apply C72_unblot; exact A).
      destruct held_open as (c & ss & dk & ix & F & H & Sm & Fit' & Ww' & Eo & Ea).
      assert (RA := runs_answers w args (bs "unblot") uargs R ix M ltac:(discriminate)).
      specialize (RA ltac:(intros st [[S _]|[[S _]|[[S _]|[[_ S]|[[S _]|[S _]]]]]]; [discriminate S..|congruence|discriminate S|discriminate S]) Ea).
      destruct (unblot_blots c ss dk ix F H Sm Fit' Ww' Eo Rd all blots Fo) as (X & Y). split; [exact X|].
      intros st out w'. rewrite RA. split.
      - intros [-> Aw]. inversion Aw as [| |l0 a0 bl ix0 out0 st0 Ta' P| |]; subst. rewrite Ta in Ta'. injection Ta' as <- <-. apply Y in P as (-> & Z). auto.
      - intros (-> & -> & Z). split; [reflexivity|]. eapply answers_unblot; [exact Ta|]. apply Y. auto.
    Qed.
  End Held.
End Reads.
