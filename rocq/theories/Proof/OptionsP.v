From Verif Require Import Model.Base Model.Path Model.Utf8 Model.Token Model.Blotter Model.Post Model.Address Model.Shatter Model.Shard Model.Conc Model.Config Model.Run Model.Index Model.Session Model.Crash Model.Root Model.Options.
From Verif Require Import Spec.Text Spec.Configs Spec.History.
From Verif Require Import Proof.Tactics Proof.TokenP Proof.BlotterP Proof.ShatterP Proof.ConcP.
Local Open Scope N_scope.

(** A document that no worker gets done keeps Close from getting past the workers. *)
Section Stuck.
  Context {W D P S : Type} (work : W -> N -> D -> result (W * list (list P))) (absorb : S -> P -> S).
  Variable d0 : D.
  Hypothesis Bad : forall w did r, work w did d0 <> Ok r.
  Let step := step work absorb.
  Let steps := steps work absorb.
  Definition is_stop (w : wstate (W := W) (D := D) (P := P)) : bool := match w with WStop => true | _ => false end.
  Definition pending (st : state (W := W) (D := D) (P := P) (S := S)) : Prop :=
    exists c, s_clients st = [c] /\ (In d0 (cl_docs c) \/ exists did, cl_send c = Some (did, d0)).
  Definition held_by (st : state (W := W) (D := D) (P := P) (S := S)) : Prop :=
    exists k w did, nth_error (s_workers st) k = Some (WDo w did d0).
  Definition unclosed (st : state (W := W) (D := D) (P := P) (S := S)) : Prop :=
    (s_main st = MRun /\ countb is_stop (s_workers st) = 0%nat) \/
    exists n, s_main st = MClose n /\ (n + countb is_stop (s_workers st) = length (s_workers st))%nat.
  Definition waiting st : Prop := ((s_main st = MRun /\ pending st) \/ held_by st) /\ unclosed st.

  Lemma stop_upd ws k w w' : nth_error ws k = Some w -> is_stop w' = is_stop w -> countb is_stop (upd k w' ws) = countb is_stop ws.
  Proof. intros E Es. pose proof (countb_upd is_stop ws k w w' E) as C. rewrite Es in C. lia. Qed.

  (** Another worker's change. *)
  Lemma waiting_upd st st' k w w' : nth_error (s_workers st) k = Some w -> is_stop w' = is_stop w ->
    (forall x did, w <> WDo x did d0) -> s_workers st' = upd k w' (s_workers st) -> s_main st' = s_main st -> s_clients st' = s_clients st ->
    waiting st -> waiting st'.
  Proof.
    intros E Es Nd Ew Em Ec [Hw Hu]. unfold waiting, unclosed, held_by, pending in *. rewrite Ew, Em, Ec, upd_length, (stop_upd _ _ _ _ E Es). split; [|exact Hu].
    destruct Hw as [Hw|(k0 & x & did & Hk)]; [left; exact Hw|right].
    exists k0, x, did. rewrite nth_upd_other; [exact Hk|]. intros ->. apply (Nd x did). congruence.
  Qed.
  Lemma waiting_same st st' : s_workers st' = s_workers st -> s_main st' = s_main st -> s_clients st' = s_clients st -> waiting st -> waiting st'.
  Proof. intros A B C. unfold waiting, unclosed, held_by, pending. rewrite A, B, C. auto. Qed.

  Lemma waiting_step st st' : step st st' -> waiting st -> waiting st'.
  Proof.
    intros H. destruct H as [st i c d r Hi Hn Hd|st i c did d k w Hi Hs Hk|st Hm Hall|st n k w Hm Hk|st Hm|st j v Hm Hj|st k w did d w' b Hk Hw
      |st k w did b Hk Hx|st k w did b Hk Hx|st k w did b Hk Hx|st k w did gs j ps v [Hk Hj] Hv V1 V2|st k w did gs j ps k' w' did' gs' v [Hk Hj] [Hk' Hj'] Nk Hv V2
      |st k w did gs j v [Hk Hj] Hv V1 V2|st j v Hv V1 V2|st k w did gs j v [Hk Hj] Hv V1|st j v p ps Hv V1|st j v Hv V1|st k w did gs Hk Hall]; intros Hwa.
    - destruct Hwa as [[(Hm & c0 & Ec & Hp)|Hh] Hu]; (split; [|exact Hu]).
      + left. cbn [set_next set_client s_main]. split; [exact Hm|]. unfold pending. cbn [set_next set_client s_clients].
        rewrite Ec in *. destruct i as [|[|i]]; cbn in Hi; try discriminate.
        inversion Hi; subst c0. cbn [upd]. eexists. split; [reflexivity|]. cbn [cl_docs cl_send]. destruct Hp as [Hp|(did & Hp)]; [|congruence].
        rewrite Hd in Hp. destruct Hp as [->|Hp]; [right; eauto|left; exact Hp].
      + right. exact Hh.
    - destruct Hwa as [Hw Hu]. split.
      + destruct Hw as [(Hm & c0 & Ec & Hp)|(k0 & x & did0 & Hk0)].
        * rewrite Ec in Hi. destruct i as [|[|i]]; cbn in Hi; try discriminate. inversion Hi; subst c0.
          destruct Hp as [Hp|(did1 & Hp)].
          -- left. split; [exact Hm|]. unfold pending. cbn [set_worker set_client s_clients]. rewrite Ec. cbn [upd]. eexists. split; [reflexivity|]. left. exact Hp.
          -- right. assert (did1 = did /\ d = d0) as [-> ->] by (split; congruence).
             exists k, w, did. cbn [set_worker s_workers]. eapply nth_upd_same. exact Hk.
        * right. exists k0, x, did0. cbn [set_worker set_client s_workers]. rewrite nth_upd_other; [exact Hk0|]. intros ->. congruence.
      + unfold unclosed in *. cbn [set_worker set_client s_workers s_main]. rewrite upd_length, (stop_upd _ _ _ _ Hk) by reflexivity. exact Hu.
    - destruct Hwa as [[(_ & c0 & Ec & Hp)|Hh] Hu].
      + exfalso. rewrite Ec in Hall. inversion Hall as [|? ? [H1 H2] _]; subst. destruct Hp as [Hp|(did & Hp)]; [rewrite H2 in Hp; destruct Hp|congruence].
      + split; [right; exact Hh|]. right. cbn [set_main s_workers s_main]. exists (length (s_workers st)). split; [reflexivity|].
        destruct Hu as [[_ ->]|(n & Hm' & _)]; [lia|congruence].
    - destruct Hwa as [Hw Hu]. split.
      + right. destruct Hw as [(Hm' & _)|(k0 & x & did0 & Hk0)]; [congruence|]. exists k0, x, did0.
        cbn [set_worker set_main s_workers]. rewrite nth_upd_other; [exact Hk0|]. intros ->. congruence.
      + right. cbn [set_worker set_main s_workers s_main]. exists n. split; [reflexivity|]. rewrite upd_length.
        destruct Hu as [[Hm' _]|(n' & Hm' & En)]; [congruence|]. assert (n' = Datatypes.S n) by congruence; subst n'.
        pose proof (countb_upd is_stop _ _ _ WStop Hk) as C. cbn [is_stop] in C. lia.
    - exfalso. destruct Hwa as [Hw Hu]. destruct Hu as [[Hm' _]|(n' & Hm' & En)]; [congruence|]. assert (n' = 0%nat) by congruence; subst n'.
      destruct Hw as [(Hm0 & _)|(k0 & x & did0 & Hk0)]; [congruence|].
      pose proof (countb_all is_stop _ En k0 _ Hk0). discriminate.
    - exfalso. destruct Hwa as [_ Hu]. destruct Hu as [[Hm' _]|(n' & Hm' & En)]; congruence.
    - eapply (waiting_upd st _ k _ _ Hk); [| |reflexivity|reflexivity|reflexivity|exact Hwa]; [reflexivity|]. intros x did1 E. inversion E; subst. exact (Bad x did1 _ Hw).
    - eapply (waiting_upd st _ k _ _ Hk); [| |reflexivity|reflexivity|reflexivity|exact Hwa]; [reflexivity|discriminate].
    - eapply (waiting_upd st _ k _ _ Hk); [| |reflexivity|reflexivity|reflexivity|exact Hwa]; [reflexivity|discriminate].
    - eapply (waiting_upd st _ k _ _ Hk); [| |reflexivity|reflexivity|reflexivity|exact Hwa]; [reflexivity|discriminate].
    - eapply (waiting_upd st _ k _ _ Hk); [| |reflexivity|reflexivity|reflexivity|exact Hwa]; [reflexivity|discriminate].
    - eapply (waiting_upd (set_worker k' (WSend w' did' (upd j GDone gs')) st) _ k (WSend w did gs)); [| | |reflexivity|reflexivity|reflexivity|].
      + cbn [set_worker s_workers]. rewrite nth_upd_other by exact Nk. exact Hk.
      + reflexivity.
      + discriminate.
      + eapply (waiting_upd st _ k' _ _ Hk'); [| |reflexivity|reflexivity|reflexivity|exact Hwa]; [reflexivity|discriminate].
    - eapply (waiting_upd st _ k _ _ Hk); [| |reflexivity|reflexivity|reflexivity|exact Hwa]; [reflexivity|discriminate].
    - eapply waiting_same; [| | |exact Hwa]; reflexivity.
    - eapply (waiting_upd st _ k _ _ Hk); [| |reflexivity|reflexivity|reflexivity|exact Hwa]; [reflexivity|discriminate].
    - eapply waiting_same; [| | |exact Hwa]; reflexivity.
    - eapply waiting_same; [| | |exact Hwa]; reflexivity.
    - destruct Hwa as [Hw Hu]. assert (Ek : nth_error (map wake (s_workers st)) k = Some (WSend w did gs)) by (rewrite nth_error_map, Hk; reflexivity).
      split.
      + destruct Hw as [Hw|(k0 & x & did0 & Hk0)]; [left; exact Hw|right]. exists k0, x, did0. cbn [set_mutex set_mono set_workers s_workers].
        rewrite nth_upd_other by (intros ->; congruence). rewrite nth_error_map, Hk0. reflexivity.
      + unfold unclosed in *. cbn [set_mutex set_mono set_workers s_workers s_main]. rewrite upd_length, map_length, (stop_upd _ _ _ _ Ek) by reflexivity.
        rewrite countb_map. rewrite (countb_ext _ is_stop) by (intros []; reflexivity). exact Hu.
  Qed.

  Lemma never_closed docs last ws shards st j : In d0 docs -> steps (init [docs] last ws shards) st -> s_main st <> MChan j.
  Proof.
    intros Hi H. assert (Wt : waiting st).
    { remember (init [docs] last ws shards) as st0. induction H as [st|st1 st2 st3 H IH H1]; subst.
      - split.
        + left. split; [reflexivity|]. exists (MkClient None docs). split; [reflexivity|left; exact Hi].
        + left. split; [reflexivity|]. cbn [init s_workers]. rewrite countb_map. clear. induction ws as [|w ws IH]; cbn; auto.
      - eapply waiting_step; [exact H1|]. apply IH. reflexivity. }
    destruct Wt as [_ [[E _]|(n & E & _)]]; congruence.
  Qed.
End Stuck.

(** The same without workers, for any document. *)
Section NoWorkers.
  Context {W D P S : Type} (work : W -> N -> D -> result (W * list (list P))) (absorb : S -> P -> S).
  Lemma no_workers docs last shards st : docs <> [] -> steps work absorb (init [docs] last [] shards) st ->
    s_main st = MRun /\ ~ Forall client_done (s_clients st).
  Proof.
    intros Ne H. destruct docs as [|d docs]; [contradiction|].
    assert (Wk : s_workers st = [] /\ s_main st = MRun /\ exists c, s_clients st = [c] /\ (cl_docs c <> [] \/ cl_send c <> None)).
    { remember (init [d :: docs] last [] shards) as st0. induction H as [st|st1 st2 st3 H IH H1]; subst.
      - split; [reflexivity|]. split; [reflexivity|]. eexists. split; [reflexivity|]. left. discriminate.
      - specialize (IH eq_refl). destruct IH as (Ew & Em & c0 & Ec & Hp).
        assert (Nw : forall k (x : wstate (W := W) (D := D) (P := P)), nth_error (s_workers st2) k = Some x -> False) by (intros k x E; rewrite Ew in E; destruct k; discriminate).
        destruct H1 as [st i c d' r Hi Hn Hd|st i c did d' k w Hi Hs Hk|st Hm Hall|st n k w Hm Hk|st Hm|st j' v Hm Hj|st k w did d' w' b Hk Hw
      |st k w did b Hk Hx|st k w did b Hk Hx|st k w did b Hk Hx|st k w did gs j' ps v [Hk Hj] Hv V1 V2|st k w did gs j' ps k' w' did' gs' v [Hk Hj] [Hk' Hj'] Nk Hv V2
      |st k w did gs j' v [Hk Hj] Hv V1 V2|st j' v Hv V1 V2|st k w did gs j' v [Hk Hj] Hv V1|st j' v p ps Hv V1|st j' v Hv V1|st k w did gs Hk Hall];
        try (exfalso; exact (Nw _ _ Hk)); try congruence; try (cbn; repeat split; eauto; fail).
        + cbn. repeat split; auto. rewrite Ec in *. destruct i as [|[|i]]; cbn in Hi; try discriminate. cbn [upd]. eexists. split; [reflexivity|].
          right. discriminate.
        + exfalso. rewrite Ec in Hall. inversion Hall as [|? ? [H1 H2] _]; subst. destruct Hp; congruence. }
    destruct Wk as (_ & E & c & Ec & Hp). split; [exact E|]. rewrite Ec. intros F. inversion F as [|? ? [F1 F2] _]; subst. destruct Hp; congruence.
  Qed.
End NoWorkers.

Lemma opt_config_10 file cwd root n s : opt_config file cwd root (MkOpts false n s 10 []) =
  Ok (MkConfig (path_abs cwd root) 10 n s 16384 words_simple default_blot_config).
Proof. reflexivity. Qed.

Lemma opt_config_t file cwd root n s t : t <> 10%Z -> opt_config file cwd root (MkOpts false n s t []) = Err EOther.
Proof.
  intros Ne. unfold opt_config, new_config, default_config, cfg_check. cbn [op_cfg op_shards op_seqlen op_shatters cf_seqlen cf_blot default_blot_config bc_interleave bc_seqlen].
  change (wrap64 (1 * 10)) with 10%Z. change (10 =? 10)%Z with true. cbn [bind cf_seqlen cf_blot cf_root cf_numshatters cf_flush cf_token default_blot_config bc_interleave bc_seqlen].
  change (wrap64 (1 * 10)) with 10%Z. destruct (Z.eqb_spec t 10); [contradiction|reflexivity].
Qed.

(** * No shards *)
Section NoShards.
  Variable u : unicode.
  Lemma shatter_none_loop seqlen did : forall toks words bl r,
    (seqlen < words + Z.of_nat (length (filter is_word toks)))%Z -> (words <= seqlen)%Z -> shatter_loop u seqlen did toks words bl [] <> Ok r.
  Proof.
    induction toks as [|t toks IH]; intros wd bl r L L0; cbn [shatter_loop filter length] in *; [lia|].
    assert (W : is_word t = match t_tag t with Word => true | Other => false end) by reflexivity. rewrite W in L.
    destruct (t_tag t); [|apply IH; assumption].
    destruct (blotter_blot u bl (t_lit t)) as [[b1 b]|e| |]; cbn [bind]; try discriminate. cbn [length] in L.
    destruct (Z.ltb_spec seqlen (wd + 1)); [discriminate|]. apply IH; lia.
  Qed.
  Lemma shatter_none_panics k m did : forall toks cnt hist bl, blotter_inv u k m hist bl -> (0 < k)%nat -> (0 < m)%nat ->
    (Z.of_nat (k * m) < cnt + Z.of_nat (length (filter is_word toks)))%Z -> (cnt <= Z.of_nat (k * m))%Z ->
    shatter_loop u (Z.of_nat (k * m)) did toks cnt bl [] = Panic.
  Proof.
    induction toks as [|t toks IH]; intros cnt hist bl I Hk Hm L L0; cbn [shatter_loop filter length] in *; [lia|].
    assert (W : is_word t = match t_tag t with Word => true | Other => false end) by reflexivity. rewrite W in L.
    destruct (t_tag t); [|eapply IH; eassumption].
    destruct (blotter_step u k m _ _ (t_lit t) I) as (b1 & E & I1). rewrite E. cbn [bind length] in *.
    destruct (Z.ltb_spec (Z.of_nat (k * m)) (cnt + 1)); [reflexivity|]. eapply IH; eauto; lia.
  Qed.
End NoShards.

Lemma opts_full cwd root n s : (0 < n)%nat -> N.of_nat n < 65536 ->
  cfg_full (MkConfig (path_abs cwd root) 10 (Z.of_nat n) s 16384 words_simple default_blot_config) 1 10 n.
Proof. intros Hn Hb. constructor; [constructor|exact Hb|]; cbn [cf_blot cf_seqlen cf_numshards cf_token cf_flush]; try reflexivity; lia. Qed.

Lemma get_indexer_ok dirs there file cwd root n s : (0 <= n)%Z -> there (path_abs cwd root) = false ->
  exists x ws, get_indexer dirs there file cwd root (MkOpts false n s 10 []) = Ok (x, ws) /\
    create_indexer (MkConfig (path_abs cwd root) 10 n s 16384 words_simple default_blot_config) = Ok (x, ws) /\
    x_cfg x = MkConfig (path_abs cwd root) 10 n s 16384 words_simple default_blot_config /\ length ws = Z.to_nat s /\
    length (x_shards x) = Z.to_nat n /\ (forall u, Forall (blotter_inv u 1 10 []) ws).
Proof.
  intros Hn Ht. unfold get_indexer. cbn [op_add]. rewrite opt_config_10. cbn [bind cf_numshards cf_root].
  destruct (Z.ltb_spec n 0); [lia|]. rewrite Ht. unfold create_indexer. cbn [cf_numshards cf_token cf_flush].
  destruct (Z.ltb_spec n 0); [lia|]. change (token_from_config words_simple) with (@Ok unit tt). cbn [bind].
  destruct (Dmd.new_adder None 16384) as [a|e| |] eqn:Ea; try discriminate Ea. cbn [bind].
  unfold start_workers. cbn [cf_numshatters cf_blot]. destruct (Z.leb_spec s 0) as [L|L]; cbn [bind].
  - eexists _, []. split; [reflexivity|]. split; [reflexivity|]. split; [reflexivity|]. split; [cbn; lia|]. split; [apply repeat_length|]. constructor.
  - destruct (blotter_from_config default_blot_config) as [b|e| |] eqn:Eb; try discriminate Eb. cbn [bind].
    eexists _, _. split; [reflexivity|]. split; [reflexivity|]. split; [reflexivity|]. split; [apply repeat_length|]. split; [apply repeat_length|].
    intros u. destruct (blotter_fresh u 1 10) as (b' & E' & I); [lia|lia|]. change (MkBlotConfig (Z.of_nat 10) (Z.of_nat 1)) with default_blot_config in E'.
    assert (b' = b) by congruence; subst b'. apply Forall_forall. intros y Hy. apply repeat_spec in Hy. subst y. exact I.
Qed.

Lemma no_shards u bl (d : doc) ws : doc_words (word_char u) (d_dat d) ws -> (10 < length ws)%nat ->
  (forall did r, shatter_work u 0 10 bl did (d_start d, d_dat d) <> Ok r) /\
  (forall hist, blotter_inv u 1 10 hist bl -> forall did, shatter_work u 0 10 bl did (d_start d, d_dat d) = Panic).
Proof.
  intros Hw L. rewrite <- (doc_words_tok u _ (d_start d) _ Hw), map_length in L.
  unfold shatter_work, shatter_do. cbn [fst snd repeat]. split.
  - intros did r. apply shatter_none_loop; lia.
  - intros hist I did. change 10%Z with (Z.of_nat (1 * 10)). eapply shatter_none_panics; [exact I| | | |]; lia.
Qed.

Lemma no_session_workers u start docs dk x : start = Ok (x, []) -> docs <> [] -> ~ session u start docs dk.
Proof.
  intros E Ne S. destruct S as [x' ws fn dm ids st j E' _ St Hm]. assert (ws = []) by congruence; subst ws.
  unfold session_steps, session_start in St. apply no_workers in St; [destruct St; congruence|]. unfold requests. destruct docs; [contradiction|discriminate].
Qed.

Lemma no_session_shards u start docs dk x ws0 cwd d ws : start = Ok (x, ws0) -> cf_numshards (x_cfg x) = 0%Z -> cf_seqlen (x_cfg x) = 10%Z ->
  In (cwd, d) docs -> doc_words (word_char u) (d_dat d) ws -> (10 < length ws)%nat -> ~ session u start docs dk.
Proof.
  intros E En Es Hi Hw L S. destruct S as [x' ws' fn dm ids st j E' _ St Hm]. assert (x' = x) by congruence; subst x'.
  unfold session_steps, session_start in St. rewrite En, Es in St. revert Hm. change (Z.to_nat 0) with 0%nat in St.
  refine (never_closed _ _ (d_start d, d_dat d) _ _ _ _ _ _ _ _ St).
  - intros w did r. apply (proj1 (no_shards u w d ws Hw L)).
  - unfold requests. apply (in_map (fun p => (d_start (snd p), d_dat (snd p))) docs (cwd, d)). exact Hi.
Qed.
