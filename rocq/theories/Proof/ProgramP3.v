(** Runs of dupi that are refused; copies are alike. *)
From Coq Require Import String QArith.
From Verif Require Import Model.Base Model.Utf8 Model.Path Model.Float Model.Token Model.Blotter Model.Shatter Model.Config Model.Json Model.Index Model.Crash Model.Root Model.Args Model.Flags Model.Verbs Model.Options Model.Cmd Model.Program.
From Verif Require Import Spec.Text Spec.Fingerprint Spec.Paths Spec.History Spec.Stretch Spec.Printed Spec.Str Spec.Cmdline Spec.Program.
From Verif Require Import Proof.Tactics Proof.PathP Proof.TokenP Proof.BlotterP Proof.ShatterP Proof.IndexP Proof.LikeP3 Proof.RootP Proof.OptionsP Proof.StretchP Proof.CmdP Proof.FlagsP Proof.VerbsP Proof.ProgramP Proof.ProgramP2 Props.Verbs.
Local Open Scope N_scope.
Local Open Scope list_scope.

(** A document with the same text, of more than ten words, is alike. *)
Lemma copies_alike u n docs i cwd x ws : nth_error docs i = Some (cwd, x) -> doc_words (word_char u) (d_dat x) ws -> (10 < List.length ws)%nat ->
  alike (word_hash u) (word_char u) n docs (d_dat x) (place_of docs (N.of_nat (S i))).
Proof.
  intros Ex W Lk. destruct (doc_spans_total u (d_dat x)) as [sp Sp]. set (H := word_hash u).
  assert (Ls : List.length ws = List.length sp) by (destruct (doc_toks u (d_dat x) 0 ws sp W Sp) as [_ F2]; clear -F2; induction F2; cbn; congruence).
  set (q := blot_of H 1 10 (firstn 11 ws) mod (N.of_nat n * 65536)).
  destruct (last_exists (fun j => carries H 1 10 n ws q j)) with (b := List.length ws) (i := 10%nat) as (j & Cj & Lj & La).
  { intros j. unfold carries. destruct (le_dec (1 * 10) j), (lt_dec j (List.length ws)), (N.eq_dec (blot_of H 1 10 (firstn (S j) ws) mod (N.of_nat n * 65536)) q); tauto || (right; intros [[? ?] ?]; lia || contradiction). }
  { split; [lia|reflexivity]. }
  { lia. }
  pose proof Cj as [Bj Ej]. destruct (nth_some sp (j - 10) ltac:(lia)) as [a Ea]. destruct (nth_some sp j ltac:(lia)) as [z Ez].
  assert (Wj : stretch (1 * 10) (d_dat x) sp (j - 10) (sub (fst a) (snd z) (d_dat x))).
  { exists a, z. replace (j - 10 + 1 * 10)%nat with j by lia. auto. }
  exists i, cwd, x, ws, sp, ws, sp, q, (sub (fst a) (snd z) (d_dat x)). do 6 (split; [assumption || reflexivity|]). split.
  - exists (j - 10)%nat. replace (j - 10 + 1 * 10)%nat with j by lia. split; [exact Cj|]. split; [|exact Wj].
    intros j' L' C'. pose proof C' as [B' _]. apply (La j'); [lia|exact C'].
  - exists (j - 10)%nat. replace (j - 10 + 1 * 10)%nat with j by lia. auto.
Qed.

Section Refused.
  Variables (u : unicode) (sorted : list N -> list nat) (grow : nat -> nat) (fuse : bool) (wild : float -> Z) (fixed : bool).
  Notation run := (dupi u sorted grow fuse wild fixed).

  Lemma refused_run w args largs root o paths : main args (at_env w) (at_home w) = RunVerb (bs "index") largs root -> index_args largs = Take (o, paths) ->
    refuses w root o -> forall st out w', run w args st out w' <-> st = 1 /\ out = [] /\ w' = w.
  Proof.
    intros M T Rf st out w'. rewrite (runs_index_iff u sorted grow fuse wild fixed _ _ _ _ _ _ M T). split; [|tauto].
    intros [X|(x & ws & docs & err & dk & G & _)]; [tauto|]. apply refuses_err in Rf as [e E]; [congruence|assumption..].
  Qed.
  (** A directory that is there already. *)
  Lemma there_run w args R iargs n paths : command w R "index" iargs args -> asks_new iargs n paths -> rooted (at_cwd w) -> at_there w (root_of w R) = true ->
    forall st out w', run w args st out w' <-> st = 1 /\ out = [] /\ w' = w.
  Proof.
    intros C A Rt Ht. pose proof (command_main _ _ _ _ _ C ltac:(left; reflexivity)) as M. destruct (asks_new_take _ _ _ A) as (s & T & Hs & Bs).
    eapply refused_run; [exact M|exact T|]. unfold refuses. cbn [op_add]. right. unfold root_of in Ht. rewrite <- path_abs_spec in Ht by exact Rt.
    eexists. rewrite opt_config_10. split; [reflexivity|]. cbn [cf_numshards cf_root]. split; [lia|exact Ht].
  Qed.
  (** No index to add to, or to read. *)
  Lemma none_run w args R iargs paths : command w R "index" iargs args -> asks_add iargs paths -> rooted (at_cwd w) -> w_cfg (at_dirs w (root_of w R)) = None ->
    forall st out w', run w args st out w' <-> st = 1 /\ out = [] /\ w' = w.
  Proof.
    intros C A Rt Ht. pose proof (command_main _ _ _ _ _ C ltac:(left; reflexivity)) as M. destruct (asks_add_take _ _ A) as (o & T & Ha).
    eapply refused_run; [exact M|exact T|]. unfold refuses. rewrite Ha. unfold root_of in Ht. rewrite <- path_abs_spec in Ht by exact Rt. rewrite Ht. eexists. reflexivity.
  Qed.
  Lemma unread_run w args R verb vargs : command w R verb vargs args -> takes (bs verb) vargs -> rooted (at_cwd w) -> w_cfg (at_dirs w (root_of w R)) = None ->
    forall st out w', run w args st out w' <-> st = 1 /\ out = [] /\ w' = w.
  Proof.
    intros C Tk Rt Ht st out w'. unfold root_of in Ht. rewrite <- path_abs_spec in Ht by exact Rt.
    assert (Iv : In (bs verb) verb_names).
    { destruct Tk as [[-> _]|[[-> _]|[[-> _]|[[-> _]|[-> _]]]]]; vm_compute; tauto. }
    assert (M := command_main _ _ _ _ _ C Iv).
    assert (Eo : exists e, open_index_at sorted (at_dirs w) (at_cwd w) R = Err e) by (unfold open_index_at, open_files; rewrite Ht; eexists; reflexivity).
    destruct Eo as [e Eo]. split.
    - intros Rn. destruct Rn as [M'|v' l' r' st M' S|v' l' r' e' M' S Eo'|v' l' r' ix' out st M' Eo' S|l' r' o' p' M' T' Rf|l' r' o' p' x ws err docs dk M' T' G D Se];
        rewrite M in M'; try discriminate M'; injection M' as Ev <- <-; try (rewrite <- Ev in S).
      + exfalso. destruct Tk as [(E & a & Ta)|[(E & a & Ta)|[(E & a & Ta)|[(E & a & Ta)|(E & a & Ta)]]]]; rewrite E in S;
          destruct S as [[S1 S]|[[S1 S]|[[S1 S]|[[S1 S]|[[S1 S]|[S1 S]]]]]]; try discriminate S1; congruence.
      + auto.
      + congruence.
      + exfalso. destruct Tk as [[E _]|[[E _]|[[E _]|[[E _]|[E _]]]]]; rewrite E in Ev; discriminate Ev.
      + exfalso. destruct Tk as [[E _]|[[E _]|[[E _]|[[E _]|[E _]]]]]; rewrite E in Ev; discriminate Ev.
    - intros (-> & -> & ->). eapply dupi_no_index; eassumption.
  Qed.
  (** Wrong options, or a call for help. *)
  Lemma stop_run w args v largs R st0 : main args (at_env w) (at_home w) = RunVerb v largs R -> stops v largs st0 ->
    forall st out w', run w args st out w' <-> st = st0 /\ out = [] /\ w' = w.
  Proof.
    intros M S0 st out w'. split.
    - intros Rn. destruct Rn as [M'|v' l' r' st M' S|v' l' r' e' M' S Eo'|v' l' r' ix' out st M' Eo' S|l' r' o' p' M' T' Rf|l' r' o' p' x ws err docs dk M' T' G D Se];
        rewrite M in M'; try discriminate M'; injection M' as Ev <- <-; try subst v'; try subst v.
      + split; [|auto]. unfold stops in S0, S. clear -S0 S.
        repeat match goal with H : _ \/ _ |- _ => destruct H as [[-> ?]|H] | H : _ /\ _ |- _ => destruct H as [-> ?] end; try discriminate;
          repeat match goal with H : ?a = ?b /\ _ |- _ => destruct H as [H ?]; try discriminate H | H : (bs _ = bs _ /\ _) \/ _ |- _ => destruct H as [[H ?]|H]; [try discriminate H|] end; congruence.
      + exfalso. unfold stops in S0. unfold takes in S. clear -S0 S.
        destruct S as [(-> & a & Ta)|[(-> & a & Ta)|[(-> & a & Ta)|[(-> & a & Ta)|(-> & a & Ta)]]]];
          destruct S0 as [[S1 S]|[[S1 S]|[[S1 S]|[[S1 S]|[[S1 S]|[S1 S]]]]]]; try discriminate S1; congruence.
      + exfalso. unfold stops in S0. inversion S; subst; destruct S0 as [[S1 S0]|[[S1 S0]|[[S1 S0]|[[S1 S0]|[[S1 S0]|[S1 S0]]]]]]; try discriminate S1; congruence.
      + exfalso. destruct S0 as [[S1 S0]|[[S1 S0]|[[S1 S0]|[[S1 S0]|[[S1 S0]|[S1 S0]]]]]]; try discriminate S1; congruence.
      + exfalso. destruct S0 as [[S1 S0]|[[S1 S0]|[[S1 S0]|[[S1 S0]|[[S1 S0]|[S1 S0]]]]]]; try discriminate S1; congruence.
    - intros (-> & -> & ->). eapply dupi_stops; eassumption.
  Qed.
  Lemma usage_run w args : main args (at_env w) (at_home w) = Usage -> forall st out w', run w args st out w' <-> st = 1 /\ out = [] /\ w' = w.
  Proof.
    intros M st out w'. split; [|intros (-> & -> & ->); apply dupi_usage; exact M].
    intros Rn. destruct Rn as [M'|v' l' r' st M' S|v' l' r' e' M' S Eo'|v' l' r' ix' out st M' Eo' S|l' r' o' p' M' T' Rf|l' r' o' p' x ws err docs dk M' T' G D Se]; [auto|congruence..].
  Qed.
  (** The process of a verb with these options ends at once. *)
  Lemma options_stop verb flags vargs st0 : In (verb, flags) verb_flags ->
    (st0 = 0 -> exists os ws h rest, vargs = ws ++ h :: rest /\ written_all flags os ws /\ valid is_number flags os /\ asks_help flags h) ->
    (st0 <> 0 -> st0 = 2 /\ (forall os rest, reads_as flags vargs os rest -> ~ valid is_number flags os) /\
      ~ exists os ws h rest, vargs = ws ++ h :: rest /\ written_all flags os ws /\ valid is_number flags os /\ asks_help flags h) ->
    stops (bs verb) vargs st0.
  Proof.
    assert (K : forall A fs has (f : list (bytes * fvalue) -> list bytes -> A), names_ok fs -> (forall n, flags_of fs n = has n) ->
      (st0 = 0 -> exists os ws h rest, vargs = ws ++ h :: rest /\ written_all has os ws /\ valid is_number has os /\ asks_help has h) ->
      (st0 <> 0 -> st0 = 2 /\ (forall os rest, reads_as has vargs os rest -> ~ valid is_number has os) /\
        ~ exists os ws h rest, vargs = ws ++ h :: rest /\ written_all has os ws /\ valid is_number has os /\ asks_help has h) ->
      take fs vargs f = Exit st0).
    { intros A fs has f Nm Hs H0 H2. destruct (N.eq_dec st0 0) as [->|Ne].
      - apply (take_help fs has vargs f Nm Hs), H0. reflexivity.
      - destruct (H2 Ne) as (-> & Nv & Nh). destruct (take fs vargs f) as [a|st] eqn:E.
        + exfalso. unfold take in E. destruct (parse_args fs vargs) as [sets rest|] eqn:P; [|discriminate].
          assert (E' : take fs vargs (fun _ _ => tt) = Take tt) by (unfold take; rewrite P; reflexivity).
          apply (take_iff fs has vargs (fun _ _ => tt) (fun _ _ _ => True) tt Nm Hs) in E' as (os & rest' & Rd & V & _); [exact (Nv _ _ Rd V)|].
          intros os sets' rest' [] _. tauto.
        + destruct (take_status _ _ _ _ E) as [->| ->]; [|reflexivity]. exfalso. apply Nh. apply (take_help fs has vargs f Nm Hs). exact E. }
    intros I H0 H2. unfold stops. repeat (destruct I as [[= <- <-]|I]); [..|destruct I].
    - left. split; [reflexivity|]. eapply K; [exact index_names|exact index_hass|assumption..].
    - right; left. split; [reflexivity|]. eapply K; [exact extract_names|exact extract_hass|assumption..].
    - right; right; left. split; [reflexivity|]. eapply K; [exact blot_names|exact blot_hass|assumption..].
    - right; right; right; left. split; [reflexivity|]. eapply K; [exact unblot_names|exact unblot_hass|assumption..].
    - do 5 right. split; [reflexivity|]. eapply K; [exact inspect_names|exact inspect_hass|assumption..].
    - do 4 right; left. split; [reflexivity|]. eapply K; [exact like_names|exact like_hass|assumption..].
  Qed.
End Refused.
