(** Hexadecimal numbers printed and scanned. *)
From Verif Require Import Model.Base Model.Utf8 Model.Config Model.Index Model.Query Model.Cmd Model.Hex Spec.Text Proof.Tactics Proof.Utf8P Spec.Hexes.
Local Open Scope N_scope.

Lemma digit_lt c d : digit c d -> d < 16.
Proof.
  intros [H|H]; assert (L : nth_error lower_digits (N.to_nat d) <> None \/ nth_error upper_digits (N.to_nat d) <> None) by (first [left; congruence|right; congruence]);
  destruct L as [L|L]; apply nth_error_Some in L; cbn [lower_digits upper_digits length] in L; lia.
Qed.
Lemma hex_value_spec c d : hex_value c = Some d <-> digit c d.
Proof.
  split.
  - unfold hex_value, in_range. intros H.
    assert (E : In c (lower_digits ++ upper_digits)).
    { destruct (N.leb_spec 48 c), (N.leb_spec c 57); cbn [andb] in H;
      destruct (N.leb_spec 97 c), (N.leb_spec c 102); cbn [andb] in H;
      destruct (N.leb_spec 65 c), (N.leb_spec c 70); cbn [andb] in H; try discriminate; try lia; cbn; lia. }
    cbn in E. repeat (destruct E as [<-|E]; [vm_compute in H; injection H as <-; first [left; reflexivity|right; reflexivity]|]). contradiction.
  - intros H. pose proof (digit_lt c d H) as L. assert (D : In d (map N.of_nat (seq 0 16))).
    { apply in_map_iff. exists (N.to_nat d). split; [lia|]. apply in_seq. lia. }
    cbn in D. repeat (destruct D as [<-|D]; [destruct H as [H|H]; cbn in H; injection H as <-; reflexivity|]). contradiction.
Qed.
Definition value (ds : list N) : N := fold_left (fun v d => 16 * v + d) ds 0.
Lemma value_snoc ds d : value (ds ++ [d]) = 16 * value ds + d.
Proof. unfold value. rewrite fold_left_app. reflexivity. Qed.
Lemma spells_digits s v : spells s v <-> exists ds, ds <> [] /\ Forall2 digit s ds /\ v = value ds.
Proof.
  split.
  - induction 1 as [c d D|s v c d S (ds & Ne & F & ->) D].
    + exists [d]. split; [discriminate|]. split; [constructor; [exact D|constructor]|reflexivity].
    + exists (ds ++ [d]). split; [destruct ds; discriminate|]. split; [apply Forall2_app; [assumption|constructor; [exact D|constructor]]|].
      symmetry. apply value_snoc.
  - intros (ds & Ne & F & ->). revert s F. induction ds as [|d ds IH] using rev_ind; [contradiction|]. intros s F.
    apply Forall2_app_inv_r in F. destruct F as (s1 & s2 & F1 & F2 & ->). inversion F2 as [|c ? ? ? D F3]; subst. inversion F3; subst.
    rewrite value_snoc. destruct ds as [|d0 ds].
    + inversion F1; subst. constructor. exact D.
    + constructor; [apply IH; [discriminate|exact F1]|exact D].
Qed.
Definition no_digit (s : bytes) : Prop := match s with [] => True | c :: _ => forall d, ~ digit c d end.
Lemma take_hex_app s ds rest : Forall2 digit s ds -> take_hex (s ++ rest) = ds ++ take_hex rest.
Proof.
  induction 1 as [|c d s ds D F IH]; [reflexivity|]. cbn [app take_hex]. apply hex_value_spec in D. rewrite D, IH. reflexivity.
Qed.
Lemma take_hex_none s : no_digit s -> take_hex s = [].
Proof.
  destruct s as [|c s]; [reflexivity|]. cbn [no_digit take_hex]. intros H. destruct (hex_value c) eqn:E; [|reflexivity].
  apply hex_value_spec in E. contradiction (H n).
Qed.
Lemma take_hex_split s : exists a b, s = a ++ b /\ Forall2 digit a (take_hex s) /\ no_digit b.
Proof.
  induction s as [|c s (a & b & -> & F & Nb)]; [exists [], []; repeat constructor|]. cbn [take_hex]. destruct (hex_value c) as [d|] eqn:E.
  - exists (c :: a), b. split; [reflexivity|]. split; [constructor; [apply hex_value_spec, E|exact F]|exact Nb].
  - exists [], (c :: a ++ b). split; [reflexivity|]. split; [constructor|]. intros d D. apply hex_value_spec in D. congruence.
Qed.

Lemma space_spec r : space r <-> is_space r = true /\ r <> 10.
Proof.
  unfold space, is_space, in_range. split.
  - intros H. cbn in H. repeat (destruct H as [<-|H]; [split; [reflexivity|discriminate]|]). contradiction.
  - intros [H Ne]. rewrite !Bool.orb_true_iff, !Bool.andb_true_iff, !N.leb_le, !N.eqb_eq in H. cbn. lia.
Qed.
Lemma skip_blanks_spec fuel : forall s t, (length s <= fuel)%nat -> skip_blanks fuel s = Ok t ->
  exists rs, Forall scalar rs /\ Forall space rs /\ s = utf8s rs ++ t /\ match decode_rune t with Some (r, _) => ~ space r /\ r <> 10 | None => True end.
Proof.
  induction fuel as [|k IH]; intros s t L H; cbn [skip_blanks] in H.
  - injection H as <-. destruct s; [|cbn in L; lia]. exists []. repeat constructor.
  - destruct (decode_rune s) as [[r w]|] eqn:E.
    + destruct (N.eqb_spec r 10) as [->|Ne]; [discriminate|]. destruct (is_space r) eqn:Es.
      * destruct (decode_inv s r w E) as (Sc & Ew & El).
        assert (Lw : (0 < w)%nat) by (rewrite Ew; unfold utf8; destruct (r <? 128), (r <? 2048), (r <? 65536); cbn; lia).
        assert (Lw2 : (w <= length s)%nat) by (rewrite El, app_length; lia).
        destruct (IH (skipn w s) t) as (rs & F1 & F2 & E2 & P); [rewrite skipn_length; lia|exact H|].
        exists (r :: rs). split; [constructor; assumption|]. split; [constructor; [apply space_spec; auto|assumption]|]. split; [|exact P].
        unfold utf8s. cbn [map concat]. fold (utf8s rs). rewrite <- app_assoc, <- E2. exact El.
      * injection H as <-. exists []. split; [constructor|]. split; [constructor|]. split; [reflexivity|]. rewrite E. split; [|exact Ne].
        intros S. apply space_spec in S. destruct S. congruence.
    + injection H as <-. exists []. split; [constructor|]. split; [constructor|]. split; [reflexivity|]. rewrite E. exact I.
Qed.
Lemma utf8_length r : (0 < length (utf8 r))%nat.
Proof. unfold utf8. destruct (r <? 128), (r <? 2048), (r <? 65536); cbn; lia. Qed.
Lemma skip_blanks_over rs : forall fuel t, Forall scalar rs -> Forall space rs -> (length (utf8s rs) <= fuel)%nat ->
  exists k, (fuel <= k + length (utf8s rs))%nat /\ skip_blanks fuel (utf8s rs ++ t) = skip_blanks k t.
Proof.
  induction rs as [|r rs IH]; intros fuel t Sc Sp L.
  - exists fuel. split; [cbn; lia|reflexivity].
  - inversion Sc; subst. inversion Sp as [|? ? S1 S2]; subst. unfold utf8s in *. cbn [map concat] in *. fold (utf8s rs) in *. rewrite app_length in L.
    pose proof (utf8_length r). destruct fuel as [|fuel]; [lia|]. rewrite <- app_assoc. cbn [skip_blanks]. rewrite decode_utf8 by assumption.
    apply space_spec in S1. destruct S1 as [S1 Ne]. destruct (N.eqb_spec r 10); [contradiction|]. rewrite S1.
    rewrite skipn_app, skipn_all, Nat.sub_diag. cbn [app skipn]. destruct (IH fuel t) as (k & Lk & Ek); [assumption..|lia|].
    exists k. rewrite app_length. split; [lia|exact Ek].
Qed.
Lemma digit_ascii c d : digit c d -> c < 128 /\ is_space c = false.
Proof.
  intros H. pose proof (digit_lt c d H) as L. assert (D : In d (map N.of_nat (seq 0 16))).
  { apply in_map_iff. exists (N.to_nat d). split; [lia|]. apply in_seq. lia. }
  cbn in D. repeat (destruct D as [<-|D]; [destruct H as [H|H]; cbn in H; injection H as <-; split; reflexivity|]). contradiction.
Qed.
Lemma skip_blanks_digit fuel c d s : digit c d -> skip_blanks fuel (c :: s) = Ok (c :: s).
Proof.
  intros D. destruct fuel; [reflexivity|]. cbn [skip_blanks decode_rune]. destruct (digit_ascii c d D) as [A B].
  apply N.ltb_lt in A. rewrite A, B. destruct (N.eqb_spec c 10) as [->|]; [discriminate|reflexivity].
Qed.
Theorem scan_exact arg v : scan_hex arg = Ok v <->
  exists sp ds rest, arg = sp ++ ds ++ rest /\ spaces sp /\ spells ds v /\ v < 2 ^ 32 /\ no_digit rest.
Proof.
  split.
  - unfold scan_hex. intros H. destruct (skip_blanks (length arg) arg) as [s|e| |] eqn:E; cbn [bind] in H; try discriminate.
    destruct (skip_blanks_spec _ _ _ (le_n _) E) as (rs & F1 & F2 & -> & _).
    destruct (take_hex_split s) as (a & b & -> & F & Nb). destruct (take_hex (a ++ b)) as [|d ds] eqn:Et; [discriminate|].
    unfold parse_hex in H. fold (value (d :: ds)) in H. destruct (value (d :: ds) <? 2 ^ 64); cbn [bind] in H; [|discriminate].
    destruct (N.ltb_spec (value (d :: ds)) (2 ^ 32)) as [L|]; [|discriminate]. injection H as <-.
    exists (utf8s rs), a, b. split; [reflexivity|]. split; [exists rs; split; [split; [assumption|reflexivity]|assumption]|].
    split; [apply spells_digits; exists (d :: ds); split; [discriminate|auto]|]. split; assumption.
  - intros (sp & ds & rest & -> & (rs & [Sc ->] & Sp) & S & L & Nr). apply spells_digits in S. destruct S as (vs & Ne & F & ->).
    unfold scan_hex. destruct (skip_blanks_over rs (length (utf8s rs ++ ds ++ rest)) (ds ++ rest) Sc Sp) as (k & _ & Ek); [rewrite app_length; lia|].
    rewrite Ek. destruct ds as [|c ds]; [inversion F; subst; contradiction|]. inversion F as [|? d ? vs' D F']; subst.
    cbn [app]. rewrite (skip_blanks_digit k c d _ D). cbn [bind].
    change (c :: ds ++ rest) with ((c :: ds) ++ rest). rewrite (take_hex_app _ _ rest F), (take_hex_none rest Nr), app_nil_r.
    unfold parse_hex. fold (value (d :: vs')). assert (value (d :: vs') <? 2 ^ 64 = true) as ->.
    { apply N.ltb_lt. eapply N.lt_trans; [exact L|reflexivity]. }
    cbn [bind]. apply N.ltb_lt in L. rewrite L. reflexivity.
Qed.

(** Printing *)
Lemma hex_digit_spec d : d < 16 -> nth_error lower_digits (N.to_nat d) = Some (hex_digit d).
Proof.
  intros L. assert (D : In d (map N.of_nat (seq 0 16))).
  { apply in_map_iff. exists (N.to_nat d). split; [lia|]. apply in_seq. lia. }
  cbn in D. repeat (destruct D as [<-|D]; [reflexivity|]). contradiction.
Qed.
Lemma hex_loop_spec fuel : forall n acc, n < 16 ^ N.of_nat fuel -> (0 < fuel)%nat -> exists s, hex_loop fuel n acc = s ++ acc /\ spells s n /\ Forall (fun c => In c lower_digits) s.
Proof.
  induction fuel as [|k IH]; intros n acc L P; [lia|]. cbn [hex_loop]. destruct (N.leb_spec 16 n) as [G|G].
  - assert (Lk : n / 16 < 16 ^ N.of_nat k).
    { apply N.div_lt_upper_bound; [lia|]. rewrite Nnat.Nat2N.inj_succ, N.pow_succ_r' in L. exact L. }
    assert (Pk : (0 < k)%nat).
    { destruct k; [|lia]. cbn in L. lia. }
    destruct (IH (n / 16) (hex_digit (n mod 16) :: acc) Lk Pk) as (s & E & S & Fl).
    assert (Dm : n mod 16 < 16) by (apply N.mod_lt; discriminate). pose proof (hex_digit_spec _ Dm) as D.
    exists (s ++ [hex_digit (n mod 16)]). split; [rewrite E, <- app_assoc; reflexivity|]. split.
    + replace n with (16 * (n / 16) + n mod 16) at 2 by (symmetry; apply N.div_mod; discriminate). apply spells_more; [exact S|left; exact D].
    + apply Forall_app. split; [exact Fl|]. constructor; [|constructor]. eapply nth_error_In; exact D.
  - pose proof (hex_digit_spec n G) as D. exists [hex_digit n]. split; [reflexivity|]. split; [constructor; left; exact D|].
    constructor; [|constructor]. eapply nth_error_In; exact D.
Qed.
Theorem print_spells n : n < 2 ^ 32 -> spells (print_hex n) n /\ Forall (fun c => In c lower_digits) (print_hex n).
Proof.
  intros L. destruct (hex_loop_spec 8 n [] L ltac:(lia)) as (s & E & S & F). unfold print_hex. rewrite E, app_nil_r. auto.
Qed.
Theorem print_scan n rest : n < 2 ^ 32 -> no_digit rest -> scan_hex (print_hex n ++ rest) = Ok n.
Proof.
  intros L Nr. apply scan_exact. destruct (print_spells n L) as [S _]. exists [], (print_hex n), rest. split; [reflexivity|].
  split; [exists []; repeat constructor|]. auto.
Qed.
(** With "0x" in front the number is 0. *)
Theorem scan_0x s : scan_hex (48 :: 120 :: s) = Ok 0.
Proof.
  apply scan_exact. exists [], [48], (120 :: s). split; [reflexivity|]. split; [exists []; repeat constructor|].
  split; [constructor; left; reflexivity|]. split; [reflexivity|]. intros d [D|D].
  all: assert (X : digit 120 d) by (first [left; exact D|right; exact D]); apply hex_value_spec in X; discriminate.
Qed.
Theorem unblot_printed u fs grow ix fuel all qs gs : Forall (fun q => q < 2 ^ 32) qs ->
  Forall2 (fun q g => unblot u fs grow ix fuel all q = Ok g) qs gs -> unblot_args u fs grow ix fuel all (map print_hex qs) = (gs, Ok tt).
Proof.
  intros L F. induction F as [|q g qs gs E F IH]; [reflexivity|]. inversion L; subst. cbn [map unblot_args].
  rewrite <- (app_nil_r (print_hex q)), print_scan by (assumption || exact I). cbn [bind]. rewrite E, IH by assumption. reflexivity.
Qed.
