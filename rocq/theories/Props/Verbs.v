(** C72: the options of the verbs are the ones of their help texts. *)
From Coq Require Import String QArith.
From Verif Require Import Model.Base Model.Args Model.Float Model.Flags Model.Options Model.Verbs
  Proof.Tactics Proof.ArgsP Proof.FlagsP Proof.NumeralP Proof.DecimalP Proof.FloatTextP Proof.FloatTextP2 Proof.VerbsP Spec.Str Spec.Cmdline Spec.FloatText.
Local Open Scope N_scope.
Local Open Scope list_scope.

(** index takes from its arguments the options written before the first path, each with the
    value given last or its default, and the paths behind them; and whenever the arguments
    can be read in that way, it runs with these. *)
Theorem C72_index : forall args o paths,
  index_args args = Take (o, paths) <->
  exists os, reads_as index_has args os paths /\ valid (fun _ _ => False) index_has os /\
    set_to truth "a" false os (op_add o) /\ set_to integer "n" 4%Z os (op_shards o) /\
    set_to integer "s" 4%Z os (op_shatters o) /\ set_to integer "t" 10%Z os (op_seqlen o) /\ set_to eq "c" [] os (op_cfg o).
Proof.
  intros args o paths. unfold index_args.
  rewrite (take_iff index_flags index_has args _
    (fun os rest a => set_to truth "a" false os (op_add (fst a)) /\ set_to integer "n" 4%Z os (op_shards (fst a)) /\
      set_to integer "s" 4%Z os (op_shatters (fst a)) /\ set_to integer "t" 10%Z os (op_seqlen (fst a)) /\ set_to eq "c" [] os (op_cfg (fst a)) /\ rest = snd a)
    (o, paths) index_names index_hass).
  - assert (VV : forall os, valid is_number index_has os <-> valid (fun _ _ => False) index_has os).
    { assert (NR : forall n, index_has n <> Some Real).
      { intros n. unfold index_has, has_flags. cbn [fold_right fst snd]. repeat (destruct (list_eq_dec N.eq_dec _ n); [discriminate|]). discriminate. }
      intros os. split; intros V n v I; specialize (V n v I); specialize (NR n); destruct (index_has n) as [[]|]; try exact V; contradiction. }
    split.
    + intros (os & rest & R & V & H1 & H2 & H3 & H4 & H5 & E). cbn [fst snd] in *. subst rest. exists os. rewrite <- VV. auto 8.
    + intros (os & R & V & H1 & H2 & H3 & H4 & H5). exists os, paths. rewrite VV. cbn [fst snd]. auto 9.
  - intros os sets rest [a p] F. cbn [fst snd].
    rewrite <- (get_bool_set index_flags "a" os sets _ eq_refl F), <- (get_int_set index_flags "n" 4 os sets _ eq_refl F),
      <- (get_int_set index_flags "s" 4 os sets _ eq_refl F), <- (get_int_set index_flags "t" 10 os sets _ eq_refl F),
      <- (get_string_set index_flags "c" os sets _ eq_refl F).
    destruct a as [a1 a2 a3 a4 a5]. cbn [op_add op_shards op_shatters op_seqlen op_cfg].
    split; [intros [= <- <- <- <- <- <-]; auto 8|intros (<- & <- & <- & <- & <- & <-); reflexivity].
Qed.
Print Assumptions C72_index.

(** extract, with the number that strconv.ParseFloat reads behind -sigma. *)
Theorem C72_extract : forall args json sigma only,
  extract_args args = Take (json, sigma, only) <->
  exists os rest, reads_as extract_has args os rest /\ valid (fun v f => parse_float v = Some f) extract_has os /\
    set_to truth "json" false os json /\ set_to (fun v f => parse_float v = Some f) "sigma" (Fin 2) os sigma /\ set_to truth "b" false os only.
Proof.
  intros args json sigma only. unfold extract_args.
  rewrite (take_iff extract_flags extract_has args _
    (fun os rest a => set_to truth "json" false os (fst (fst a)) /\ set_to is_number "sigma" (Fin 2) os (snd (fst a)) /\ set_to truth "b" false os (snd a))
    (json, sigma, only) extract_names extract_hass).
  - reflexivity.
  - intros os sets rest [[a1 a2] a3] F. cbn [fst snd].
    rewrite <- (get_bool_set extract_flags "json" os sets _ eq_refl F), <- (get_float_set extract_flags "sigma" (Fin 2) os sets _ eq_refl F),
      <- (get_bool_set extract_flags "b" os sets _ eq_refl F).
    split; [intros [= <- <- <-]; auto|intros (<- & <- & <-); reflexivity].
Qed.
Print Assumptions C72_extract.
(** That number, of any string: it is one of the words inf, infinity and nan, or a decimal or
    hexadecimal number of Go's literals, of which the nearest float64 is taken; when that is not
    finite it is an error. Of an exponent of 100000 and more only the first five digits count. *)
Theorem C72_sigma : forall s f,
  parse_float s = Some f <-> float_word s f \/ exists q, number first_five s q /\ round64 q = f /\ forall b, f <> Inf b.
Proof. exact parse_float_all. Qed.
Print Assumptions C72_sigma.
(** With no more than 2000 characters that makes no difference: the nearest float64 is the one
    of the number that is written there. *)
Theorem C72_sigma_short : forall s f, (List.length s <= 2000)%nat ->
  parse_float s = Some f <-> float_word s f \/ exists q, number eq s q /\ round64 q = f /\ forall b, f <> Inf b.
Proof. exact parse_float_short. Qed.
Print Assumptions C72_sigma_short.
(** With more it does: a way to write 1 that is read as 0. *)
Theorem C72_sigma_refuted : exists s q, number eq s q /\ (q == 1)%Q /\ parse_float s = Some (Fin 0) /\ round64 q = Fin 1.
Proof.
  destruct (long_one_wrong (N.to_nat 100000)) as [P (q & Nm & E)]; [rewrite N_nat_Z; reflexivity|].
  exists (long_one (N.to_nat 100000)), q. split; [exact Nm|]. split; [exact E|]. split; [exact P|]. rewrite (round64_comp _ _ E). vm_compute. reflexivity.
Qed.
Print Assumptions C72_sigma_refuted.

(** blot, unblot and inspect. *)
Theorem C72_blot : forall args b files,
  blot_args args = Take (b, files) <->
  exists os, reads_as blot_has args os files /\ valid (fun v f => parse_float v = Some f) blot_has os /\ set_to truth "offsets" false os b.
Proof.
  intros args b files. unfold blot_args.
  rewrite (take_iff blot_flags blot_has args _ (fun os rest a => set_to truth "offsets" false os (fst a) /\ rest = snd a) (b, files) blot_names blot_hass).
  - split; [intros (os & rest & R & V & H & E); cbn [fst snd] in *; subst rest; eauto|intros (os & R & V & H); exists os, files; auto].
  - intros os sets rest [a1 a2] F. cbn [fst snd]. rewrite <- (get_bool_set blot_flags "offsets" os sets _ eq_refl F).
    split; [intros [= <- <-]; auto|intros (<- & <-); reflexivity].
Qed.
Print Assumptions C72_blot.
Theorem C72_unblot : forall args b blots,
  unblot_args args = Take (b, blots) <->
  exists os, reads_as unblot_has args os blots /\ valid (fun v f => parse_float v = Some f) unblot_has os /\ set_to truth "all" false os b.
Proof.
  intros args b files. unfold unblot_args.
  rewrite (take_iff unblot_flags unblot_has args _ (fun os rest a => set_to truth "all" false os (fst a) /\ rest = snd a) (b, files) unblot_names unblot_hass).
  - split; [intros (os & rest & R & V & H & E); cbn [fst snd] in *; subst rest; eauto|intros (os & R & V & H); exists os, files; auto].
  - intros os sets rest [a1 a2] F. cbn [fst snd]. rewrite <- (get_bool_set unblot_flags "all" os sets _ eq_refl F).
    split; [intros [= <- <-]; auto|intros (<- & <-); reflexivity].
Qed.
Print Assumptions C72_unblot.
Theorem C72_inspect : forall args json files,
  inspect_args args = Take (json, files) <->
  exists os rest, reads_as inspect_has args os rest /\ valid (fun v f => parse_float v = Some f) inspect_has os /\
    set_to truth "json" false os json /\ set_to truth "files" false os files.
Proof.
  intros args b files. unfold inspect_args.
  rewrite (take_iff inspect_flags inspect_has args _ (fun os rest a => set_to truth "json" false os (fst a) /\ set_to truth "files" false os (snd a)) (b, files) inspect_names inspect_hass).
  - reflexivity.
  - intros os sets rest [a1 a2] F. cbn [fst snd]. rewrite <- (get_bool_set inspect_flags "json" os sets _ eq_refl F), <- (get_bool_set inspect_flags "files" os sets _ eq_refl F).
    split; [intros [= <- <-]; auto|intros (<- & <-); reflexivity].
Qed.
Print Assumptions C72_inspect.

(** A verb that does not run ends the process with status 0 or 2; with 0 exactly when, behind
    options that are right, -h or -help stands. *)
Definition ends_right {A} (flags : bytes -> option fkind) (args : list bytes) (t : taken A) : Prop :=
  (forall st, t = Exit st -> st = 0 \/ st = 2) /\
  (t = Exit 0 <-> exists os ws w rest, args = ws ++ w :: rest /\ written_all flags os ws /\
     valid (fun v f => parse_float v = Some f) flags os /\ asks_help flags w).
Theorem C72_exit : forall args,
  ends_right index_has args (index_args args) /\ ends_right extract_has args (extract_args args) /\
  ends_right blot_has args (blot_args args) /\ ends_right unblot_has args (unblot_args args) /\
  ends_right inspect_has args (inspect_args args) /\ ends_right like_has args (like_args args).
Proof.
  intros args. repeat split; try (intros st; apply take_status).
  1-2: apply (take_help index_flags index_has args _ index_names index_hass).
  1-2: apply (take_help extract_flags extract_has args _ extract_names extract_hass).
  1-2: apply (take_help blot_flags blot_has args _ blot_names blot_hass).
  1-2: apply (take_help unblot_flags unblot_has args _ unblot_names unblot_hass).
  1-2: apply (take_help inspect_flags inspect_has args _ inspect_names inspect_hass).
  1-2: apply (take_help like_flags like_has args _ like_names like_hass).
Qed.
Print Assumptions C72_exit.

(** REFUTED: options may stand anywhere. Behind a path they are paths. *)
Theorem C72_later_refuted : ~ forall path opts, positional path -> index_args (path :: opts) = index_args (opts ++ [path]).
Proof.
  intros H. specialize (H (bs "docs") [bs "-n"; bs "8"]). discriminate H. right. discriminate.
Qed.
Print Assumptions C72_later_refuted.
(** REFUTED: the word behind a flag is its value. A flag without value is set, whatever the
    word: extract -json false prints JSON. *)
Theorem C72_false_refuted : ~ forall b v sigma json, truth v b -> extract_args [bs "-json"; v] = Take (json, sigma, false) -> json = b.
Proof. intros H. specialize (H false (bs "false") (Fin 2) true). discriminate H; [|reflexivity]. cbn. auto 7. Qed.
Print Assumptions C72_false_refuted.
(** REFUTED: a number of decimal digits is that number. -n 010 is 8 shards. *)
Theorem C72_octal_refuted : ~ forall s n o, decimal s 0 = Some n -> index_args [bs "-n"; s] = Take (o, []) -> op_shards o = Z.of_N n.
Proof. intros H. specialize (H (bs "010") 10 (MkOpts false 8 4 10 []) eq_refl eq_refl). discriminate H. Qed.
Print Assumptions C72_octal_refuted.
(** REFUTED: "--" ends the options and is no argument. It is for like: the file "--" is
    opened, which fails, and the files behind it are not looked at. *)
Theorem C72_like_refuted : ~ forall args files os, reads_as like_has args os files -> like_args args = Take files.
Proof.
  intros H. assert (X : like_args [bs "--"; bs "f"] = Take [bs "f"]).
  { apply (H _ _ []). exists [], [bs "--"; bs "f"]. split; [reflexivity|]. split; [constructor|now left]. }
  discriminate X.
Qed.
Print Assumptions C72_like_refuted.

(** like runs when its first argument is a file, or "--", or there is none, and takes all its
    arguments for files. *)
Theorem C72_like : forall args files,
  like_args args = Take files <-> files = args /\ (args = [] \/ exists w r, args = w :: r /\ (positional w \/ w = bs "--")).
Proof.
  intros args files. unfold like_args.
  rewrite (take_iff like_flags like_has args _ (fun _ _ a => args = a) files like_names like_hass) by reflexivity.
  split.
  - intros (os & rest & (ws & tail & Ea & W & T) & _ & <-). split; [reflexivity|].
    assert (E : ws = []). { destruct W as [|n v w os ws Wr W]; [reflexivity|]. exfalso. destruct Wr as [n v k dash Hk _|n v k dash Hk _ _|n dash Hk _]; discriminate Hk. }
    subst ws. cbn [app] in Ea. subst tail. destruct T as [->|(-> & [->|(w & r & -> & P)])]; [right; eauto|left; reflexivity|right; eauto].
  - intros (-> & H). exists []. destruct H as [->|(w & r & -> & [P| ->])].
    + exists []. split; [exists [], []; split; [reflexivity|]; split; [constructor|right; auto]|]. split; [intros n v []|reflexivity].
    + exists (w :: r). split; [exists [], (w :: r); split; [reflexivity|]; split; [constructor|right; split; [reflexivity|right; eauto]]|]. split; [intros n v []|reflexivity].
    + exists r. split; [exists [], (bs "--" :: r); split; [reflexivity|]; split; [constructor|left; reflexivity]|]. split; [intros n v []|reflexivity].
Qed.
Print Assumptions C72_like.
Lemma like_positional : forall args, (forall w r, args = w :: r -> positional w) -> like_args args = Take args.
Proof. intros args H. apply C72_like. split; [reflexivity|]. destruct args as [|w r]; [left; reflexivity|right]. exists w, r. split; [reflexivity|left; exact (H w r eq_refl)]. Qed.

Example index_example : index_args (map bs ["-n=0x10"; "-a"; "--t"; "7"; "-n"; "1_0"; "docs"; "-s"]%string)
  = Take (MkOpts true 10 4 7 [], [bs "docs"; bs "-s"]).
Proof. reflexivity. Qed.
Example extract_example : extract_args (map bs ["-sigma"; "-1.5e0"; "-b"]%string) = Take (false, Fin (-3 # 2), true).
Proof. reflexivity. Qed.
Example sigma_example : parse_float (bs "-InF") = Some (Inf true) /\ parse_float (bs "nan") = Some NaN /\ parse_float (bs "+nan") = None /\
  parse_float (bs "0x_1.8p-2") = Some (Fin (3 # 8)) /\ parse_float (bs "1_000.5e3") = Some (Fin 1000500) /\ parse_float (bs "1__0") = None /\
  parse_float (bs "0x1") = None /\ parse_float (bs "1e400") = None /\ parse_float (bs "1e-400") = Some (Fin 0) /\
  float_word (bs "-InF") (Inf true) /\ (exists q, number eq (bs "1.5e1") q /\ round64 q = Fin 15).
Proof.
  repeat (split; [vm_compute; reflexivity|]). split; [apply (proj1 (special_word _ _)); reflexivity|].
  assert (Sh : (List.length (bs "1.5e1") <= 2000)%nat) by (apply PeanoNat.Nat.leb_le; vm_compute; reflexivity).
  destruct (proj1 (parse_float_short (bs "1.5e1") (Fin 15) Sh) ltac:(vm_compute; reflexivity)) as [W|(q & Nm & R & _)]; [inversion W|exists q; auto].
Qed.
Example help_example : index_args (map bs ["-a"; "-help"; "-x"]%string) = Exit 0 /\ index_args (map bs ["-n"; "x"; "-h"]%string) = Exit 2.
Proof. now split. Qed.
