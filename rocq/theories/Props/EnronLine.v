(** C116: dupenron from its command line on. *)
From Coq Require Import String QArith Lia.
From Verif Require Import Model.Base Model.Utf8 Model.Token Model.Blotter Model.Path Model.Config Model.Run Model.Index Model.Query Model.Session Model.Crash Model.Float Model.Flags Model.Options Model.Verbs Model.Root Model.Output Model.Csv Model.Enron Model.EnronMain Model.EnronArgs.
From Verif Require Import Spec.Text Spec.Fingerprint Spec.Configs Spec.Paths Spec.Reading Spec.Querying Spec.History Spec.Str Spec.Csv Spec.Cmdline Spec.Printed Spec.EnronLine.
From Verif Require Import Proof.Tactics Proof.TokenP Proof.BlotterP Proof.Utf8P Proof.PathP Proof.ConfigP Proof.FlagsP Proof.NumeralP Proof.VerbsP Proof.OutputP Proof.QueryW Proof.RootP Proof.SortP Proof.SessionP Proof.SessionP2 Proof.CrashP Proof.CsvP Proof.EnronP Proof.EnronMainP.
From Verif Require Import Props.Verbs Props.Config Props.Csv.
Local Open Scope N_scope.
Local Open Scope list_scope.

Lemma enron_names : names_ok enron_flags. Proof. names. Qed.
Lemma enron_hass : forall n, flags_of enron_flags n = enron_has n. Proof. hass. Qed.
Lemma get_string_or_set fs n d os sets z : lookup (bs n) fs = Some KString -> Forall2 (assigns fs) os sets ->
  get_string_or (bs n) d sets = z <-> set_to eq n d os z.
Proof.
  intros L F. pose proof (last_set_given fs (bs n) os sets F (VString d)) as G. unfold get_string_or, set_to.
  destruct (given (bs n) os) as [v|].
  - destruct G as (k & L' & S). rewrite L in L'. injection L' as <-. cbn [set_value] in S. injection S as <-. reflexivity.
  - rewrite G. split; congruence.
Qed.

(** C116: the options: which argument lists are accepted, and what is taken from them. *)
Theorem C116_options : forall args o rest,
  enron_args args = Take (o, rest) <-> enron_line args (eo_n o) (eo_s o) (eo_print o) (eo_root o) rest.
Proof.
  intros args o paths. unfold enron_args, enron_line.
  rewrite (take_iff enron_flags enron_has args _
    (fun os rest a => set_to integer "n" 16%Z os (eo_n (fst a)) /\ set_to integer "s" 10%Z os (eo_s (fst a)) /\ set_to truth "o" false os (eo_print (fst a)) /\
      set_to eq "r" (bs "dupi.idx") os (eo_root (fst a)) /\ rest = snd a)
    (o, paths) enron_names enron_hass).
  - assert (VV : forall os, valid is_number enron_has os <-> valid (fun _ _ => False) enron_has os).
    { assert (NR : forall n, enron_has n <> Some Real).
      { intros n. unfold enron_has, has_flags. cbn [fold_right fst snd]. repeat (destruct (list_eq_dec N.eq_dec _ n); [discriminate|]). discriminate. }
      intros os. split; intros V n v I; specialize (V n v I); specialize (NR n); destruct (enron_has n) as [[]|]; try exact V; contradiction. }
    split.
    + intros (os & rest & R & V & H1 & H2 & H3 & H4 & E). cbn [fst snd] in *. subst rest. exists os. rewrite <- VV. auto 8.
    + intros (os & R & V & H1 & H2 & H3 & H4). exists os, paths. rewrite VV. cbn [fst snd]. auto 9.
  - intros os sets rest [a p] F. cbn [fst snd].
    rewrite <- (get_int_set enron_flags "n" 16 os sets _ eq_refl F), <- (get_int_set enron_flags "s" 10 os sets _ eq_refl F),
      <- (get_bool_set enron_flags "o" os sets _ eq_refl F), <- (get_string_or_set enron_flags "r" _ os sets _ eq_refl F).
    destruct a as [a1 a2 a3 a4]. cbn [eo_n eo_s eo_print eo_root].
    split; [intros [= <- <- <- <- <-]; auto 8|intros (<- & <- & <- & <- & <-); reflexivity].
Qed.
Theorem C116_exit : forall args, ends_right enron_has args (enron_args args).
Proof.
  intros args. split; [intros st; apply take_status|]. apply (take_help enron_flags enron_has args _ enron_names enron_hass).
Qed.

(** Any two readings of a command line are the same. *)
Lemma line_taken args n s o r rest : enron_line args n s o r rest -> enron_args args = Take (MkEnron n s o r, rest).
Proof. intros L. apply C116_options. exact L. Qed.
Lemma count_snoc {A} (l : list A) x : forall r, count_lines r (l ++ [x]) = count_lines r l ++ (if (r + nlen l + 1) mod 10000 =? 0 then print_dec (r + nlen l + 1) ++ bs " rcds" ++ [10] else []).
Proof.
  induction l as [|y l IH]; intros r; cbn [app count_lines].
  - change (nlen (@nil A)) with 0. rewrite N.add_0_r, app_nil_r. reflexivity.
  - rewrite IH, <- app_assoc. replace (r + 1 + nlen l + 1) with (r + nlen (y :: l) + 1) by (unfold nlen; cbn [List.length]; lia). reflexivity.
Qed.
Lemma count_counts {A} (l : list A) : nlen l < 2 ^ 32 -> counts (nlen l) (count_lines 0 l).
Proof.
  induction l as [|x l IH] using rev_ind; intros L.
  - exists []. split; [constructor|reflexivity].
  - assert (El : nlen (l ++ [x]) = nlen l + 1) by (unfold nlen; rewrite app_length; cbn [List.length]; lia). rewrite El in *.
    destruct IH as (ls & F & E); [clear - L; lia|]. rewrite count_snoc, E, N.add_0_l. clear El E.
    set (k := nlen l) in *. clearbody k. destruct ((k + 1) mod 10000 =? 0) eqn:M.
    + apply N.eqb_eq in M. assert (D : (k + 1) / 10000 = k / 10000 + 1 /\ 10000 * (k / 10000 + 1) = k + 1).
      { clear -M. pose proof (N.div_mod (k + 1) 10000 ltac:(lia)). rewrite M in H. pose proof (N.div_mod k 10000 ltac:(lia)). pose proof (N.mod_lt k 10000 ltac:(lia)). nia. }
      destruct D as [D1 D2]. exists (ls ++ [print_dec (k + 1) ++ bs " rcds" ++ [10]]). rewrite concat_app. cbn [concat]. rewrite app_nil_r. split; [|reflexivity].
      rewrite D1. replace (N.to_nat (k / 10000 + 1)) with (S (N.to_nat (k / 10000))) by (clear; lia). rewrite seq_S. apply Forall2_app; [exact F|]. constructor; [|constructor].
      exists (print_dec (k + 1)). split; [|reflexivity]. replace (10000 * N.of_nat (1 + N.to_nat (k / 10000))) with (k + 1); [apply print_dec_numeral; exact L|].
      rewrite <- D2. clear. f_equal. lia.
    + apply N.eqb_neq in M. assert (D : (k + 1) / 10000 = k / 10000).
      { clear -M. pose proof (N.div_mod (k + 1) 10000 ltac:(lia)). pose proof (N.mod_lt (k + 1) 10000 ltac:(lia)). pose proof (N.div_mod k 10000 ltac:(lia)). pose proof (N.mod_lt k 10000 ltac:(lia)). nia. }
      rewrite app_nil_r. exists ls. rewrite D. split; [exact F|reflexivity].
Qed.
Definition enron_cfg (cwd r : bytes) (n : Z) : config := MkConfig (path_abs cwd r) 10 n 2 16384 words_simple default_blot_config.
Lemma new_config_ten cwd r n : new_config cwd r n 10 = Ok (enron_cfg cwd r n).
Proof. reflexivity. Qed.
Lemma new_config_other cwd r n s c : new_config cwd r n s = Ok c -> s = 10%Z /\ c = enron_cfg cwd r n.
Proof. intros E. assert (s = 10%Z) as -> by (apply (proj1 (C38_new_config cwd r n s)); eauto). split; [reflexivity|]. rewrite new_config_ten in E. congruence. Qed.
Lemma new_config_not cwd r n s : s <> 10%Z -> exists e, new_config cwd r n s = Err e.
Proof.
  intros Hs. unfold new_config. change (default_config cwd r) with (Ok (MkConfig (path_abs cwd r) 10 2 2 16384 words_simple default_blot_config)). cbn [bind].
  unfold cfg_check. cbn [cf_seqlen cf_blot]. change (wrap64 _) with 10%Z. apply Z.eqb_neq in Hs. rewrite Hs. cbn [bind]. eauto.
Qed.
Lemma enron_full cwd r n : (0 < n < 65536)%Z -> cfg_full (enron_cfg cwd r n) 1 10 (Z.to_nat n).
Proof. intros L. constructor; [constructor; cbn [enron_cfg cf_blot cf_seqlen cf_numshards cf_token]; try reflexivity; lia|lia|cbn [enron_cfg cf_flush]; lia]. Qed.
Lemma enron_values cwd r n : (0 < n < 65536)%Z -> (exists rs, is_text (path_abs cwd r) rs) -> cfg_values (enron_cfg cwd r n).
Proof.
  intros L T. constructor; cbn [enron_cfg cf_root cf_token cf_seqlen cf_numshards cf_numshatters cf_flush cf_blot]; try (unfold int64; cbn; lia).
  - exact T.
  - apply Utf8P.utf8_valid_spec; vm_compute; reflexivity.
Qed.

(** When dupenron makes an index, and where. *)
Theorem C116_makes : forall u cwd file there agent args out left e, rooted cwd -> enron_run u cwd file there agent args out left e ->
  match left with
  | Some (root, _) => exists n r rest, enron_line args n 10 false r rest /\ agent = true /\ (0 <= n)%Z /\ root = show_abs (spec_abs cwd r) /\ there root = false
  | None => forall n r rest, enron_line args n 10 false r rest -> agent = false \/ (n < 0)%Z \/ there (show_abs (spec_abs cwd r)) = true
  end.
Proof.
  intros u cwd file there agent args out left e Rc H.
  destruct H as [st E|o rest out e E P M|o rest E P A|o rest e E P A C|o rest c E P A C N0|o rest c E P A C N0 T|o rest c fs e E P A C N0 T M].
  1-6: intros n r rest' L; apply line_taken in L; rewrite L in E.
  - discriminate E.
  - injection E as <- <-. discriminate P.
  - left. exact A.
  - injection E as <- <-. cbn [eo_root eo_n eo_s] in C. rewrite new_config_ten in C. discriminate C.
  - injection E as <- <-. cbn [eo_root eo_n eo_s] in C. rewrite new_config_ten in C. injection C as <-. right. left. exact N0.
  - injection E as <- <-. cbn [eo_root eo_n eo_s] in C. rewrite new_config_ten in C. injection C as <-. right. right. cbn [enron_cfg cf_root] in T. rewrite (path_abs_spec cwd r Rc) in T. exact T.
  - apply C116_options in E. destruct o as [n s p r]. cbn [eo_n eo_s eo_print eo_root] in *. subst p. destruct (new_config_other _ _ _ _ _ C) as [-> ->]. cbn [enron_cfg cf_root cf_numshards] in *.
    rewrite (path_abs_spec cwd r Rc) in *. exists n, r, rest. auto.
Qed.

(** REFUTED: -s is the length of the sequences. With any other value than 10 there is no index. *)
Theorem C116_seqlen_refuted : forall u cwd file there agent args n s r rest, enron_line args n s false r rest -> s <> 10%Z ->
  (exists out left e, enron_run u cwd file there agent args out left e) /\
  forall out left e, enron_run u cwd file there agent args out left e -> out = [] /\ left = None /\ e = Status 1.
Proof.
  intros u cwd file there agent args n s r rest L Hs. apply line_taken in L. split.
  - exists [], None, (Status 1). destruct agent; [|exact (run_agent _ _ _ _ _ _ _ _ L eq_refl eq_refl)].
    destruct (new_config_not cwd r n s Hs) as [e E]. exact (run_config _ _ _ _ _ _ _ _ e L eq_refl eq_refl E).
  - intros out left e H.
    destruct H as [st E|o rest' out e E P M|o rest' E P A|o rest' e E P A C|o rest' c E P A C N0|o rest' c E P A C N0 T|o rest' c fs e E P A C N0 T M]; rewrite L in E; try discriminate E; injection E as <- <-.
    + discriminate P.
    + auto.
    + auto.
    + destruct (new_config_other _ _ _ _ _ C) as [X _]. contradiction.
    + destruct (new_config_other _ _ _ _ _ C) as [X _]. contradiction.
    + destruct (new_config_other _ _ _ _ _ C) as [X _]. contradiction.
Qed.

(** How dupenron ends when it makes no index and was not asked to print: with status 1 and nothing printed... *)
Theorem C116_fails : forall u cwd file there agent args n s r rest out e, enron_line args n s false r rest ->
  enron_run u cwd file there agent args out None e -> out = [] /\ (e = Status 1 \/ e = Panics /\ agent = true /\ s = 10%Z /\ (n < 0)%Z).
Proof.
  intros u cwd file there agent args n s r rest out e L H. apply line_taken in L. remember (@None (bytes * files)) as left eqn:El.
  destruct H as [st E|o rest' out e E P M|o rest' E P A|o rest' e E P A C|o rest' c E P A C N0|o rest' c E P A C N0 T|o rest' c fs e E P A C N0 T M]; rewrite L in E; try discriminate E; injection E as <- <-;
    cbn [eo_n eo_s eo_print eo_root] in *; try discriminate; auto.
  destruct (new_config_other _ _ _ _ _ C) as [-> ->]. split; [reflexivity|]. right. auto.
Qed.
(** ...but REFUTED for a number of shards below 0: then it panics. *)
Theorem C116_negative_refuted : forall u cwd file there args n r rest, enron_line args n 10 false r rest -> (n < 0)%Z ->
  (exists out left e, enron_run u cwd file there true args out left e) /\
  forall out left e, enron_run u cwd file there true args out left e -> left = None /\ e = Panics.
Proof.
  intros u cwd file there args n r rest L Hn. apply line_taken in L. split.
  - exists [], None, Panics. exact (run_negative u cwd file there true args _ rest (enron_cfg cwd r n) L eq_refl eq_refl (new_config_ten cwd r n) Hn).
  - intros out left e H.
    destruct H as [st E|o rest' out e E P M|o rest' E P A|o rest' e E P A C|o rest' c E P A C N0|o rest' c E P A C N0 T|o rest' c fs e E P A C N0 T M]; rewrite L in E; try discriminate E; injection E as <- <-;
      cbn [eo_n eo_s eo_print eo_root] in *; try discriminate; rewrite new_config_ten in C; try discriminate C; injection C as <-; cbn [enron_cfg cf_root cf_numshards] in *.
    + auto.
    + lia.
    + lia.
Qed.

(** The runs that make an index. *)
Lemma run_made u cwd file there args n r rest : enron_line args n 10 false r rest -> (0 <= n)%Z -> there (path_abs cwd r) = false ->
  forall out left e, enron_run u cwd file there true args out left e ->
  out = enron_counts file rest /\ exists fs, left = Some (path_abs cwd r, fs) /\ enron_main u cwd (enron_cfg cwd r n) file rest fs e.
Proof.
  intros L Hn Th out left e H. apply line_taken in L.
  destruct H as [st E|o rest' out e E P M|o rest' E P A|o rest' e E P A C|o rest' c E P A C N0|o rest' c E P A C N0 T|o rest' c fs e E P A C N0 T M]; rewrite L in E; try discriminate E; injection E as <- <-;
    cbn [eo_n eo_s eo_print eo_root] in *; try discriminate; rewrite new_config_ten in C; try discriminate C; injection C as <-; cbn [enron_cfg cf_root cf_numshards] in *.
  - lia.
  - congruence.
  - split; [reflexivity|]. exists fs. auto.
Qed.
Lemma made_run u cwd file there args n r rest fs e : enron_line args n 10 false r rest -> (0 <= n)%Z -> there (path_abs cwd r) = false ->
  enron_main u cwd (enron_cfg cwd r n) file rest fs e -> enron_run u cwd file there true args (enron_counts file rest) (Some (path_abs cwd r, fs)) e.
Proof.
  intros L Hn Th M. apply line_taken in L. exact (run_index u cwd file there true args _ rest (enron_cfg cwd r n) fs e L eq_refl eq_refl (new_config_ten cwd r n) Hn Th M).
Qed.

(** REFUTED: without a file to index, or with one that is not there, dupenron makes no index. It leaves one
    that cannot be opened, and that keeps it from working when it is given the right file. *)
Theorem C116_no_file_refuted : forall u cwd file there args n r rest, rooted cwd -> enron_line args n 10 false r rest -> (0 < n < 65536)%Z ->
  there (show_abs (spec_abs cwd r)) = false -> rest = [] \/ (exists fname more, rest = fname :: more /\ file fname = None) ->
  (exists out left e, enron_run u cwd file there true args out left e) /\
  forall out left e, enron_run u cwd file there true args out left e ->
  out = [] /\ e <> Status 0 /\ exists fs, left = Some (show_abs (spec_abs cwd r), fs) /\
  (forall sorted dirs, dirs (show_abs (spec_abs cwd r)) = fs ->
    (exists e, open_files sorted dirs (show_abs (spec_abs cwd r)) = Err e) /\ (exists e, open_indexer_files dirs (show_abs (spec_abs cwd r)) = Err e)) /\
  forall file' there' args' n' rest' out' left' e', enron_line args' n' 10 false r rest' -> (0 <= n')%Z -> there' (show_abs (spec_abs cwd r)) = true ->
    enron_run u cwd file' there' true args' out' left' e' -> out' = [] /\ left' = None /\ e' = Status 1.
Proof.
  intros u cwd file there args n r rest Rc L Hn Th Hr. rewrite <- (path_abs_spec cwd r Rc) in *.
  destruct (C91_reached u cwd (enron_cfg cwd r n) 1 10 (Z.to_nat n) file (enron_full cwd r n Hn) eq_refl Rc) as [Rn Rf].
  assert (Hn' : (0 <= n)%Z) by lia. split.
  - destruct Hr as [->|(fname & more & -> & Ef)].
    + destruct Rn as [fs M]. eexists. eexists. eexists. exact (made_run u cwd file there args n r [] fs Panics L Hn' Th M).
    + destruct (Rf fname more) as [R1 _]. destruct (R1 Ef) as [fs M]. eexists. eexists. eexists. exact (made_run u cwd file there args n r _ fs (Status 1) L Hn' Th M).
  - intros out left e H. destruct (run_made u cwd file there args n r rest L Hn' Th out left e H) as (Eo & fs & El & M).
    assert (Ne : e <> Status 0).
    { destruct Hr as [->|(fname & more & -> & Ef)]; inversion M; subst; try discriminate; congruence. }
    split; [rewrite Eo; destruct Hr as [->|(fname & more & -> & Ef)]; [reflexivity|cbn [enron_counts]; rewrite Ef; reflexivity]|]. split; [exact Ne|]. exists fs. split; [exact El|].
    split; [exact (proj1 (C91_lost_refuted u cwd (enron_cfg cwd r n) file rest fs e M Ne))|].
    intros file' there' args' n' rest' out' left' e' L' Hn2 Th' H'. apply line_taken in L'.
    destruct H' as [st E|o rs out' e' E P M'|o rs E P A|o rs e' E P A C|o rs c E P A C N0|o rs c E P A C N0 T|o rs c fs' e' E P A C N0 T M']; rewrite L' in E; try discriminate E; injection E as <- <-;
      cbn [eo_n eo_s eo_print eo_root] in *; try discriminate; rewrite new_config_ten in C; try discriminate C; injection C as <-; cbn [enron_cfg cf_root cf_numshards] in *.
    + lia.
    + auto.
    + congruence.
Qed.

(** With a file of records of two fields each: the index is made in -r with -n shards, queries find
    exactly the records whose text after the header has the blot, and what is printed are the counts. *)
Theorem C116_index_partial : forall u cwd file there args n r fname more, rooted cwd -> enron_line args n 10 false r (fname :: more) -> (0 < n < 65536)%Z ->
  there (show_abs (spec_abs cwd r)) = false -> (exists rs, is_text (show_abs (spec_abs cwd r)) rs) ->
  forall t rs ps, file fname = Some t -> csv_text rs t -> pairs rs ps ->
  nlen ps < 2 ^ 32 - 1 -> nlen ps * nlen (show_abs (spec_abs cwd fname)) < 2 ^ 32 - 1 ->
  (exists out left e, enron_run u cwd file there true args out left e) /\
  forall out left e, enron_run u cwd file there true args out left e ->
  e = Status 0 /\ counts (nlen ps) out /\ exists fs docs, left = Some (show_abs (spec_abs cwd r), fs) /\
  Forall2 (fun p d => fst d = cwd /\ d_path (snd d) = fname /\ exists msg, newlines (snd p) msg /\ body msg (d_dat (snd d))) ps docs /\
  forall sorted wss dirs, sorts sorted -> words_of (word_char u) docs wss -> dirs (show_abs (spec_abs cwd r)) = fs ->
  exists ix, open_files sorted dirs (show_abs (spec_abs cwd r)) = Ok ix /\ forall grow blot fuel, (List.length ps < fuel)%nat ->
  exists ds, query_get grow ix fuel blot None = Ok ds /\
    docs_keys ds = map (place_of docs) (carriers (word_hash u) 1 10 (Z.to_nat n) 0 wss (blot mod (Z.to_N n * 65536))).
Proof.
  intros u cwd file there args n r fname more Rc L Hn Th T t rs ps Ef Ct Hp Lp Pp. rewrite <- (path_abs_spec cwd r Rc) in *.
  assert (Hn' : (0 <= n)%Z) by lia. pose proof (enron_full cwd r n Hn) as F. pose proof (enron_values cwd r n Hn T) as V.
  pose proof (records_csv rs t ps Ct Hp) as R. split.
  - assert (Fit : docs_fit (map (pair cwd) (enron_docs fname 0 (map lfs ps)))) by (apply enron_fit; [exact Rc| |]; unfold nlen in *; rewrite map_length; assumption).
    destruct F as [Fa Fb Fc]. destruct (history_exists u (enron_cfg cwd r n) 1 10 (Z.to_nat n) Fa Fb Fc [map (pair cwd) (enron_docs fname 0 (map lfs ps))]) as [dk Hi]; [discriminate|reflexivity|rewrite all_docs_one; exact Fit|].
    eexists. eexists. eexists. apply (made_run u cwd file there args n r (fname :: more) (files_of dk) (Status 0) L Hn' Th).
    apply (enron_good u cwd (enron_cfg cwd r n) file fname more t _ dk Ef R).
    inversion Hi as [docs dk' S|? ? ? ? H]; subst; [exact S|inversion H].
  - intros out left e H. destruct (run_made u cwd file there args n r _ L Hn' Th out left e H) as (Eo & fs & El & M).
    assert (X : e = Status 0 /\ exists dk, fs = files_of dk /\ session u (create_indexer (enron_cfg cwd r n)) (map (pair cwd) (enron_docs fname 0 (map lfs ps))) dk).
    { inversion M as [|? ? ? Mi|? ? ? ? ? Mi R'|? ? ? ? dk Mi R' S]; subst; try congruence. assert (t0 = t) by congruence. subst t0. rewrite R in R'. injection R' as <-. split; [reflexivity|]. eauto. }
    destruct X as (-> & dk & -> & Ss). split; [reflexivity|]. split.
    { rewrite Eo. cbn [enron_counts]. rewrite Ef, R. cbn [fst]. replace (nlen ps) with (nlen (map lfs ps)) by (unfold nlen; rewrite map_length; reflexivity).
      apply count_counts. unfold nlen in *. rewrite map_length. clear -Lp. lia. }
    exists (files_of dk), (map (pair cwd) (enron_docs fname 0 (map lfs ps))). split; [exact El|].
    assert (Fit : docs_fit (map (pair cwd) (enron_docs fname 0 (map lfs ps)))) by (apply enron_fit; [exact Rc| |]; unfold nlen in *; rewrite map_length; assumption).
    assert (B : Forall2 (fun p d => fst d = cwd /\ d_path (snd d) = fname /\ exists msg, newlines (snd p) msg /\ body msg (d_dat (snd d))) ps (map (pair cwd) (enron_docs fname 0 (map lfs ps)))).
    { pose proof (enron_bodies fname (map lfs ps) 0) as B. clear -B. remember (enron_docs fname 0 (map lfs ps)) as l. clear Heql. revert l B.
      induction ps as [|p ps IH]; intros l B; inversion B as [|? ? ? ? [B1 B2]]; subst; constructor; [|apply IH; assumption].
      cbn [fst snd]. split; [reflexivity|]. split; [reflexivity|]. exists (lf (snd p)). split; [apply lf_newlines|exact B2]. }
    split; [exact B|]. intros sorted wss dirs Hs Ww Ed.
    pose proof (history_create u (enron_cfg cwd r n) _ dk Ss) as Hi. rewrite <- (all_docs_one (map (pair cwd) _)) in Fit, Ww.
    destruct (query_exact u (enron_cfg cwd r n) 1 10 (Z.to_nat n) sorted F Hs _ dk wss Hi Fit Ww) as (ix & Ei & Q). exists ix.
    pose proof (history_cfg u _ _ dk Hi) as Kc.
    destruct (open_files_of (enron_cfg cwd r n) 1 10 (Z.to_nat n) F V sorted dirs dk Ed Kc) as [Eop _].
    split; [change (path_abs cwd r) with (cf_root (enron_cfg cwd r n)); rewrite Eop; exact Ei|]. intros grow blot fuel Hf.
    rewrite all_docs_one in Q. rewrite <- Z_nat_N. apply Q. rewrite <- (Forall2_len _ _ _ B). exact Hf.
Qed.

(** Arguments that are read so, and a file. *)
Example C116_example : enron_line [bs "-n"; bs "2"; bs "-r=x"; bs "f"] 2 10 false (bs "x") [bs "f"] /\ rooted (bs "/") /\
  enron_line [bs "-s"; bs "5"; bs "f"] 16 5 false (bs "dupi.idx") [bs "f"] /\ enron_line [] 16 10 false (bs "dupi.idx") [] /\ enron_line [bs "-n=-1"] (-1) 10 false (bs "dupi.idx") [] /\
  (exists rs, is_text (show_abs (spec_abs (bs "/") (bs "x"))) rs) /\
  csv_text [[bs "a"; bs "b"]] (bs "a,b") /\ pairs [[bs "a"; bs "b"]] [(bs "a", bs "b")] /\
  counts 20001 (bs "10000 rcds" ++ [10] ++ bs "20000 rcds" ++ [10]).
Proof.
  split; [apply (proj1 (C116_options _ (MkEnron 2 10 false (bs "x")) [bs "f"])); vm_compute; reflexivity|]. split; [eexists; reflexivity|].
  split; [apply (proj1 (C116_options _ (MkEnron 16 5 false (bs "dupi.idx")) [bs "f"])); vm_compute; reflexivity|].
  split; [apply (proj1 (C116_options _ (MkEnron 16 10 false (bs "dupi.idx")) [])); vm_compute; reflexivity|].
  split; [apply (proj1 (C116_options _ (MkEnron (-1) 10 false (bs "dupi.idx")) [])); vm_compute; reflexivity|].
  split; [apply Utf8P.utf8_valid_spec; vm_compute; reflexivity|].
  split; [exact (proj1 (proj2 (proj2 (proj2 (proj2 C91_example)))))|]. split; [reflexivity|].
  exists [bs "10000 rcds" ++ [10]; bs "20000 rcds" ++ [10]]. split; [|reflexivity]. change (N.to_nat (20001 / 10000)) with 2%nat. cbn [seq].
  constructor; [exists (print_dec 10000); split; [exact (print_dec_numeral 10000 eq_refl)|vm_compute; reflexivity]|].
  constructor; [exists (print_dec 20000); split; [exact (print_dec_numeral 20000 eq_refl)|vm_compute; reflexivity]|constructor].
Qed.
Print Assumptions C116_options.
Print Assumptions C116_exit.
Print Assumptions C116_makes.
Print Assumptions C116_seqlen_refuted.
Print Assumptions C116_fails.
Print Assumptions C116_negative_refuted.
Print Assumptions C116_no_file_refuted.
Print Assumptions C116_index_partial.
