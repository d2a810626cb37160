(** What the verbs take from their arguments. *)
From Coq Require Import String QArith.
From Verif Require Import Model.Base Model.Args Model.Float Model.Flags Model.Options Model.Verbs
  Proof.Tactics Proof.ArgsP Proof.FlagsP Proof.NumeralP Spec.Str Spec.Cmdline.
Local Open Scope N_scope.
Local Open Scope list_scope.

Lemma has_flags_of fs l n : Forall2 (fun a b => fst a = bs (fst b) /\ kind_of (snd a) = snd b) fs l -> flags_of fs n = has_flags l n.
Proof.
  induction 1 as [|[m k] [s k'] fs l [E1 E2] F IH]; [reflexivity|]. cbn [fst snd] in *. unfold flags_of in *. cbn [lookup has_flags fold_right fst snd].
  subst m k'. destruct (list_eq_dec N.eq_dec (bs s) n) as [->|Ne].
  - now rewrite (proj2 (beq_iff _ _) eq_refl).
  - destruct (beq (bs s) n) eqn:B; [apply beq_iff in B; contradiction|]. exact IH.
Qed.
Lemma written_ext F G n v ws : (forall n, F n = G n) -> written F n v ws -> written G n v ws.
Proof.
  intros E [n0 v0 k d H D|n0 v0 k d H K D|n0 d H D]; rewrite E in H.
  - now apply (w_equals G n0 v0 k).
  - now apply (w_next G n0 v0 k).
  - now apply w_alone.
Qed.
Lemma written_all_ext F G os ws : (forall n, F n = G n) -> written_all F os ws -> written_all G os ws.
Proof. intros E. induction 1; constructor; auto. now apply (written_ext F). Qed.
Lemma reads_ext F G args os rest : (forall n, F n = G n) -> reads_as F args os rest -> reads_as G args os rest.
Proof. intros E (ws & t & A & W & T). exists ws, t. split; [exact A|]. split; [|exact T]. now apply (written_all_ext F). Qed.
Lemma help_ext F G w : (forall n, F n = G n) -> asks_help F w -> asks_help G w.
Proof. intros E (d & n & D & N & L & H). exists d, n. rewrite E in L. auto. Qed.

Definition is_number (v : bytes) (f : float) : Prop := parse_float v = Some f.
Lemma assigns_valid fs os sets : Forall2 (assigns fs) os sets -> valid is_number (flags_of fs) os.
Proof.
  induction 1 as [|[n v] [n' x] os sets A F IH]; intros m w I; [destruct I|]. destruct I as [[= <- <-]|I]; [|now apply IH].
  destruct A as (_ & k & L & S). cbn [fst snd] in L, S. unfold flags_of. rewrite L. destruct k; cbn [option_map kind_of set_value] in *.
  - destruct (parse_bool v) as [b|] eqn:P; [|discriminate]. exists b. now apply parse_bool_truth.
  - destruct (parse_int v) as [z|] eqn:P; [|discriminate]. exists z. now apply parse_int_integer.
  - destruct (parse_float v) as [f|] eqn:P; [|discriminate]. now exists f.
  - exact I.
Qed.
Lemma valid_assigns fs os : valid is_number (flags_of fs) os -> exists sets, Forall2 (assigns fs) os sets.
Proof.
  induction os as [|[n v] os IH]; intros V; [now exists []|].
  destruct IH as [sets F]; [intros m w I; apply V; now right|].
  specialize (V n v (or_introl eq_refl)). unfold flags_of in V. destruct (lookup n fs) as [k|] eqn:L; [|contradiction].
  assert (X : exists x, set_value k v = Some x).
  { destruct k; cbn [option_map kind_of set_value] in *.
    - destruct V as [b T]. apply parse_bool_truth in T. rewrite T. cbn. eauto.
    - destruct V as [z T]. apply parse_int_integer in T. rewrite T. cbn. eauto.
    - destruct V as [f ->]. cbn. eauto.
    - eauto. }
  destruct X as [x X]. exists ((n, x) :: sets). constructor; [|exact F]. split; [reflexivity|]. exists k. auto.
Qed.
Lemma get_bool_set fs n os sets b : lookup (bs n) fs = Some KBool -> Forall2 (assigns fs) os sets ->
  get_bool (bs n) sets = b <-> set_to truth n false os b.
Proof.
  intros L F. pose proof (last_set_given fs (bs n) os sets F (VBool false)) as G. unfold get_bool, set_to.
  destruct (given (bs n) os) as [v|].
  - destruct G as (k & L' & S). rewrite L in L'. injection L' as <-. cbn [set_value] in S. rewrite <- parse_bool_truth.
    destruct (parse_bool v) as [b0|]; [|discriminate]. injection S as <-. split; congruence.
  - rewrite G. split; congruence.
Qed.
Lemma get_int_set fs n d os sets z : lookup (bs n) fs = Some KInt -> Forall2 (assigns fs) os sets ->
  get_int (bs n) d sets = z <-> set_to integer n d os z.
Proof.
  intros L F. pose proof (last_set_given fs (bs n) os sets F (VInt d)) as G. unfold get_int, set_to.
  destruct (given (bs n) os) as [v|].
  - destruct G as (k & L' & S). rewrite L in L'. injection L' as <-. cbn [set_value] in S. rewrite <- parse_int_integer.
    destruct (parse_int v) as [b0|]; [|discriminate]. injection S as <-. split; congruence.
  - rewrite G. split; congruence.
Qed.
Lemma get_float_set fs n d os sets z : lookup (bs n) fs = Some KFloat -> Forall2 (assigns fs) os sets ->
  get_float (bs n) d sets = z <-> set_to is_number n d os z.
Proof.
  intros L F. pose proof (last_set_given fs (bs n) os sets F (VFloat d)) as G. unfold get_float, set_to, is_number.
  destruct (given (bs n) os) as [v|].
  - destruct G as (k & L' & S). rewrite L in L'. injection L' as <-. cbn [set_value] in S.
    destruct (parse_float v) as [b0|]; [|discriminate]. injection S as <-. split; congruence.
  - rewrite G. split; congruence.
Qed.
Lemma get_string_set fs n os sets z : lookup (bs n) fs = Some KString -> Forall2 (assigns fs) os sets ->
  get_string (bs n) sets = z <-> set_to eq n [] os z.
Proof.
  intros L F. pose proof (last_set_given fs (bs n) os sets F (VString [])) as G. unfold get_string, set_to.
  destruct (given (bs n) os) as [v|].
  - destruct G as (k & L' & S). rewrite L in L'. injection L' as <-. cbn [set_value] in S. injection S as <-. reflexivity.
  - rewrite G. split; congruence.
Qed.

(** A verb that takes what [f] makes: [P] says what that is. *)
Lemma take_iff {A} fs has args (f : list (bytes * fvalue) -> list bytes -> A) (P : list (bytes * bytes) -> list bytes -> A -> Prop) a :
  names_ok fs -> (forall n, flags_of fs n = has n) ->
  (forall os sets rest a, Forall2 (assigns fs) os sets -> (f sets rest = a <-> P os rest a)) ->
  take fs args f = Take a <-> exists os rest, reads_as has args os rest /\ valid is_number has os /\ P os rest a.
Proof.
  intros W H PF. unfold take. split.
  - destruct (parse_args fs args) as [sets rest|st] eqn:E; [|discriminate]. intros [= <-].
    apply (parse_reads fs args sets rest W) in E as (os & R & F). exists os, rest. split; [now apply (reads_ext (flags_of fs))|].
    split; [|now apply (PF _ _ _ _ F)]. intros n v I. rewrite <- H. now apply (assigns_valid fs os sets F).
  - intros (os & rest & R & V & Pa). destruct (valid_assigns fs os) as [sets F]; [intros n v I; rewrite H; now apply V|].
    assert (E : parse_args fs args = FDone sets rest). { apply (parse_reads fs args sets rest W). exists os. split; [|exact F]. now apply (reads_ext has). }
    rewrite E. f_equal. now apply (PF _ _ _ _ F).
Qed.
Lemma take_help {A} fs has args (f : list (bytes * fvalue) -> list bytes -> A) :
  names_ok fs -> (forall n, flags_of fs n = has n) ->
  take fs args f = Exit 0 <-> exists os ws w rest, args = ws ++ w :: rest /\ written_all has os ws /\ valid is_number has os /\ asks_help has w.
Proof.
  intros W H. unfold take. transitivity (parse_args fs args = FExit 0).
  - destruct (parse_args fs args) as [s r|st]; [split; discriminate|]. split; intros [= ->]; reflexivity.
  - rewrite (parse_help fs args W). split.
    + intros (os & sets & ws & w & rest & E & WA & F & AH). exists os, ws, w, rest. split; [exact E|]. split; [now apply (written_all_ext (flags_of fs))|].
      split; [intros n v I; rewrite <- H; now apply (assigns_valid fs os sets F)|now apply (help_ext (flags_of fs))].
    + intros (os & ws & w & rest & E & WA & V & AH). destruct (valid_assigns fs os) as [sets F]; [intros n v I; rewrite H; now apply V|].
      exists os, sets, ws, w, rest. split; [exact E|]. split; [now apply (written_all_ext has)|]. split; [exact F|now apply (help_ext has)].
Qed.
Lemma take_status {A} fs args (f : list (bytes * fvalue) -> list bytes -> A) st : take fs args f = Exit st -> st = 0 \/ st = 2.
Proof. unfold take. destruct (parse_args fs args) as [s r|st'] eqn:E; [discriminate|]. intros [= <-]. exact (exit_status _ _ _ _ E). Qed.

Ltac names := repeat constructor; cbn; intuition discriminate.
Lemma index_names : names_ok index_flags. Proof. names. Qed.
Lemma extract_names : names_ok extract_flags. Proof. names. Qed.
Lemma blot_names : names_ok blot_flags. Proof. names. Qed.
Lemma unblot_names : names_ok unblot_flags. Proof. names. Qed.
Lemma inspect_names : names_ok inspect_flags. Proof. names. Qed.
Lemma like_names : names_ok like_flags. Proof. constructor. Qed.
Ltac hass := intros n; apply has_flags_of; repeat constructor.
Lemma index_hass : forall n, flags_of index_flags n = index_has n. Proof. hass. Qed.
Lemma extract_hass : forall n, flags_of extract_flags n = extract_has n. Proof. hass. Qed.
Lemma blot_hass : forall n, flags_of blot_flags n = blot_has n. Proof. hass. Qed.
Lemma unblot_hass : forall n, flags_of unblot_flags n = unblot_has n. Proof. hass. Qed.
Lemma inspect_hass : forall n, flags_of inspect_flags n = inspect_has n. Proof. hass. Qed.
Lemma like_hass : forall n, flags_of like_flags n = like_has n. Proof. hass. Qed.
