(** The text and the JSON printed by the commands. *)
From Coq Require Import String.
From Verif Require Import Model.Base Model.Utf8 Model.Json Model.Index Model.Query Model.Cmd Model.Output.
From Verif Require Import Spec.Text Spec.Querying Spec.Str Spec.Printed Proof.Tactics Proof.JsonP.
From Verif Require Import Model.Hex.
Local Open Scope N_scope.
Local Open Scope list_scope.

(** * Numbers *)
Lemma hex_nth d : d < 16 -> nth_error hexadecimal (N.to_nat d) = Some (hex_digit d).
Proof.
  intros L. assert (In d (map N.of_nat (seq 0 16))) as I.
  { apply in_map_iff. exists (N.to_nat d). split; [apply N2Nat.id|]. apply in_seq. lia. }
  cbn [map seq] in I. repeat (destruct I as [<-|I]; [reflexivity|]). destruct I.
Qed.
Lemma dec_nth d : d < 10 -> nth_error decimal (N.to_nat d) = Some (48 + d).
Proof.
  intros L. assert (In d (map N.of_nat (seq 0 10))) as I.
  { apply in_map_iff. exists (N.to_nat d). split; [apply N2Nat.id|]. apply in_seq. lia. }
  cbn [map seq] in I. repeat (destruct I as [<-|I]; [reflexivity|]). destruct I.
Qed.
Lemma hex_loop_numeral fuel : forall n acc, n < 16 ^ N.of_nat fuel -> (0 < fuel)%nat ->
  exists s, hex_loop fuel n acc = s ++ acc /\ numeral hexadecimal s n.
Proof.
  induction fuel as [|k IH]; intros n acc L P; [lia|]. cbn [hex_loop]. destruct (N.leb_spec 16 n) as [G|G].
  - assert (Lk : n / 16 < 16 ^ N.of_nat k).
    { apply N.div_lt_upper_bound; [lia|]. rewrite Nnat.Nat2N.inj_succ, N.pow_succ_r' in L. exact L. }
    assert (Pk : (0 < k)%nat). { destruct k; [|lia]. cbn in L. lia. }
    destruct (IH (n / 16) (hex_digit (n mod 16) :: acc) Lk Pk) as (s & E & S).
    assert (Dm : n mod 16 < 16) by (apply N.mod_lt; discriminate).
    exists (s ++ [hex_digit (n mod 16)]). split; [rewrite E, <- app_assoc; reflexivity|].
    replace n with (16 * (n / 16) + n mod 16) at 2 by (symmetry; apply N.div_mod; discriminate).
    change 16 with (N.of_nat (List.length hexadecimal)) at 2. apply numeral_more; [exact S| |apply hex_nth, Dm].
    assert (1 <= n / 16) by (apply N.div_le_lower_bound; lia). lia.
  - exists [hex_digit n]. split; [reflexivity|]. constructor. apply hex_nth, G.
Qed.
Lemma print_hex_numeral n : n < 2 ^ 32 -> numeral hexadecimal (print_hex n) n.
Proof.
  intros L. destruct (hex_loop_numeral 8 n [] L ltac:(lia)) as (s & E & S). unfold print_hex. rewrite E, app_nil_r. exact S.
Qed.
Lemma digits_numeral fuel : forall n, n < 10 ^ N.of_nat fuel -> (0 < fuel)%nat -> numeral decimal (digits fuel n) n.
Proof.
  induction fuel as [|k IH]; intros n L P; [lia|]. cbn [digits]. destruct (N.ltb_spec n 10) as [G|G].
  - constructor. apply dec_nth, G.
  - assert (Lk : n / 10 < 10 ^ N.of_nat k).
    { apply N.div_lt_upper_bound; [lia|]. rewrite Nnat.Nat2N.inj_succ, N.pow_succ_r' in L. exact L. }
    assert (Pk : (0 < k)%nat). { destruct k; [|lia]. cbn in L. lia. }
    assert (Dm : n mod 10 < 10) by (apply N.mod_lt; discriminate).
    replace n with (10 * (n / 10) + n mod 10) at 3 by (symmetry; apply N.div_mod; discriminate).
    change 10 with (N.of_nat (List.length decimal)) at 3. apply numeral_more; [auto| |apply dec_nth, Dm].
    assert (1 <= n / 10) by (apply N.div_le_lower_bound; lia). lia.
Qed.
Lemma print_dec_numeral n : n < 2 ^ 32 -> numeral decimal (print_dec n) n.
Proof. intros L. apply digits_numeral; [|lia]. eapply N.lt_trans; [exact L|]. vm_compute. reflexivity. Qed.

Lemma numeral_chars ds s v : numeral ds s v -> Forall (fun c => In c ds) s.
Proof.
  induction 1 as [c d H|s v c d H IH _ H1].
  - constructor; [eapply nth_error_In; exact H|constructor].
  - apply Forall_app. split; [exact IH|]. constructor; [eapply nth_error_In; exact H1|constructor].
Qed.
Lemma numeral_nonempty ds s v : numeral ds s v -> s <> [].
Proof. destruct 1; [discriminate|]. destruct s; discriminate. Qed.
(** The digits determine the number. *)
Lemma numeral_value ds : NoDup ds -> forall s v, numeral ds s v -> forall v', numeral ds s v' -> v = v'.
Proof.
  intros ND. assert (U : forall c d d', nth_error ds (N.to_nat d) = Some c -> nth_error ds (N.to_nat d') = Some c -> d = d').
  { intros c d d' H H'. apply N2Nat.inj. apply (proj1 (NoDup_nth_error ds) ND); [apply nth_error_Some; congruence|congruence]. }
  induction 1 as [c d H|s v c d H IH Nz H1]; intros v' H'.
  - remember [c] as x eqn:Ex. destruct H' as [c' d' H2|s' v' c' d' H2 _ H3]; [injection Ex as ->; eauto|].
    apply numeral_nonempty in H2. destruct s' as [|? [|? ?]]; try discriminate. contradiction.
  - remember (s ++ [c]) as x eqn:Ex. destruct H' as [c' d' H2|s' v' c' d' H2 _ H3].
    + apply numeral_nonempty in H. destruct s as [|? [|? ?]]; try discriminate. contradiction.
    + apply app_inj_tail in Ex. destruct Ex as [-> ->]. rewrite (IH v' H2), (U _ _ _ H1 H3). reflexivity.
Qed.

(** * Unambiguous lines *)
Lemma cut_first {A} (c : A) a : forall a' r r', ~ In c a -> ~ In c a' -> a ++ c :: r = a' ++ c :: r' -> a = a' /\ r = r'.
Proof.
  induction a as [|x a IH]; intros [|x' a'] r r' N N' E; cbn [app] in E.
  - injection E as E. auto.
  - injection E as E1 E2. subst. exfalso. apply N'. left. reflexivity.
  - injection E as E1 E2. subst. exfalso. apply N. left. reflexivity.
  - injection E as E1 E2. subst x'. destruct (IH a' r r') as [-> ->]; [intros H; apply N; right; exact H|intros H; apply N'; right; exact H|exact E2|auto].
Qed.
Lemma cut_last {A} (c : A) r : forall r' a a', ~ In c r -> ~ In c r' -> a ++ c :: r = a' ++ c :: r' -> a = a' /\ r = r'.
Proof.
  intros r' a a' N N' E. apply (f_equal (@rev A)) in E. rewrite !rev_app_distr in E. cbn [rev] in E. rewrite <- !app_assoc in E. cbn [app] in E.
  destruct (cut_first c (rev r) (rev r') (rev a) (rev a')) as [E1 E2]; [rewrite <- in_rev; exact N|rewrite <- in_rev; exact N'|exact E|].
  apply (f_equal (@rev A)) in E1. apply (f_equal (@rev A)) in E2. rewrite !rev_involutive in *. auto.
Qed.
Lemma no_char ds s v c : numeral ds s v -> ~ In c ds -> ~ In c s.
Proof. intros H N I. apply numeral_chars in H. rewrite Forall_forall in H. apply N, H, I. Qed.
Ltac not_in := let H := fresh in intros H; vm_compute in H; repeat (destruct H as [H|H]; [discriminate H|]); exact H.
Lemma decimal_nodup : NoDup decimal.
Proof. unfold decimal. cbn. repeat (constructor; [not_in|]). constructor. Qed.
Lemma hexadecimal_nodup : NoDup hexadecimal.
Proof. unfold hexadecimal. cbn. repeat (constructor; [not_in|]). constructor. Qed.

Definition doc_body (k : place) (b : bytes) : Prop :=
  exists s' e', let '(p, s, e) := k in numeral decimal s' s /\ numeral decimal e' e /\ b = p ++ 64 :: s' ++ 58 :: e'.
Lemma doc_bodies k t : shows_doc k t -> exists b, t = 32 :: b /\ doc_body k b.
Proof. destruct 1 as [p s e s' e' Hs He]. eexists. split; [reflexivity|]. exists s', e'. auto. Qed.
Lemma body_plain k b c : doc_body k b -> In c [32; 10] -> plain_path (fst (fst k)) -> ~ In c b.
Proof.
  destruct k as [[p s] e]. intros (s' & e' & Hs & He & ->) Hc [P1 P2] I. cbn [fst] in *.
  apply in_app_iff in I. destruct I as [I|[I|I]].
  - destruct Hc as [<-|[<-|[]]]; auto.
  - destruct Hc as [<-|[<-|[]]]; discriminate I.
  - apply in_app_iff in I. destruct I as [I|[I|I]].
    + revert I. apply (no_char _ _ _ _ Hs). destruct Hc as [<-|[<-|[]]]; not_in.
    + destruct Hc as [<-|[<-|[]]]; discriminate I.
    + revert I. apply (no_char _ _ _ _ He). destruct Hc as [<-|[<-|[]]]; not_in.
Qed.
Lemma body_inj k k' b : doc_body k b -> doc_body k' b -> k = k'.
Proof.
  destruct k as [[p s] e], k' as [[p' s2] e2]. intros (s' & e' & Hs & He & E) (s3 & e3 & Hs3 & He3 & E'). rewrite E in E'.
  assert (Na : forall x y xv yv, numeral decimal x xv -> numeral decimal y yv -> ~ In 64 (x ++ 58 :: y)).
  { intros x y xv yv Hx Hy I. apply in_app_iff in I. destruct I as [I|[I|I]]; [|discriminate I|].
    - revert I. apply (no_char _ _ _ _ Hx). not_in.
    - revert I. apply (no_char _ _ _ _ Hy). not_in. }
  apply cut_last in E'; [|eauto|eauto]. destruct E' as [-> E'].
  apply cut_first in E'; [|apply (no_char _ _ _ _ Hs); not_in|apply (no_char _ _ _ _ Hs3); not_in]. destruct E' as [<- <-].
  rewrite (numeral_value _ decimal_nodup _ _ Hs _ Hs3), (numeral_value _ decimal_nodup _ _ He _ He3). reflexivity.
Qed.
Definition plain_entry_ok (e : N * list place) : Prop := Forall (fun k => plain_path (fst (fst k))) (snd e).
Lemma docs_no_nl ds ts : Forall2 shows_doc ds ts -> Forall (fun k => plain_path (fst (fst k))) ds -> ~ In 10 (concat ts).
Proof.
  induction 1 as [|k t ds ts H F IH]; intros P; [intros []|]. inversion P; subst. cbn [concat]. intros I. apply in_app_iff in I.
  destruct I as [I|I]; [|apply IH; assumption]. destruct (doc_bodies k t H) as (b & -> & B). destruct I as [I|I]; [discriminate I|].
  revert I. apply (body_plain k b 10 B); [right; left; reflexivity|assumption].
Qed.
Lemma docs_inj ds ts : Forall2 shows_doc ds ts -> Forall (fun k => plain_path (fst (fst k))) ds ->
  forall ds' ts', Forall2 shows_doc ds' ts' -> Forall (fun k => plain_path (fst (fst k))) ds' -> concat ts = concat ts' -> ds = ds'.
Proof.
  induction 1 as [|k t ds ts H F IH]; intros P ds' ts' F' P' E.
  - destruct F' as [|k' t' ds' ts' H' F']; [reflexivity|]. destruct (doc_bodies k' t' H') as (b & -> & B). discriminate E.
  - destruct F' as [|k' t' ds' ts' H' F']. { destruct (doc_bodies k t H) as (b & -> & B). discriminate E. }
    inversion P; inversion P'; subst. destruct (doc_bodies k t H) as (b & -> & B). destruct (doc_bodies k' t' H') as (b' & -> & B').
    cbn [concat app] in E. injection E as E.
    assert (N1 : ~ In 32 b) by (apply (body_plain k b 32 B); [left; reflexivity|assumption]).
    assert (N2 : ~ In 32 b') by (apply (body_plain k' b' 32 B'); [left; reflexivity|assumption]).
    assert (X : b = b' /\ concat ts = concat ts').
    { assert (Hd : forall l tl, Forall2 shows_doc l tl -> concat tl = [] \/ exists r, concat tl = 32 :: r).
      { intros l tl [|k2 t2 l2 tl2 Hk _]; [left; reflexivity|right]. destruct (doc_bodies _ _ Hk) as (b2 & -> & _). eexists. reflexivity. }
      destruct (Hd _ _ F) as [E1|[r1 E1]], (Hd _ _ F') as [E2|[r2 E2]]; rewrite E1, E2 in *; rewrite ?app_nil_r in E.
      - auto.
      - exfalso. subst b. apply N1, in_app_iff. right. left. reflexivity.
      - exfalso. subst b'. apply N2, in_app_iff. right. left. reflexivity.
      - apply cut_first in E; [|assumption|assumption]. destruct E as [-> ->]. auto. }
    destruct X as [-> X]. rewrite (body_inj k k' b' B B'). f_equal. eapply IH; eassumption.
Qed.
Lemma line_inj e t e' t' r r' : shows_line e t -> shows_line e' t' -> plain_entry_ok e -> plain_entry_ok e' -> t ++ r = t' ++ r' -> e = e' /\ r = r'.
Proof.
  destruct 1 as [b ds b1 ts Hb F]. destruct 1 as [b' ds' b1' ts' Hb' F']. unfold plain_entry_ok. cbn [snd]. intros P P' E.
  rewrite <- !app_assoc in E. change ([10] ++ ?x) with (10 :: x) in E. rewrite !app_assoc in E.
  assert (Nb : forall x v y, numeral hexadecimal x v -> ~ In 10 y -> ~ In 10 (x ++ y)).
  { intros x v y Hx Ny I. apply in_app_iff in I. destruct I as [I|I]; [|auto]. revert I. apply (no_char _ _ _ _ Hx). not_in. }
  apply cut_first in E; [|eapply Nb; [eassumption|eapply docs_no_nl; eassumption]|eapply Nb; [eassumption|eapply docs_no_nl; eassumption]].
  destruct E as [E ->]. split; [|reflexivity].
  assert (Hd : forall l tl, Forall2 shows_doc l tl -> concat tl = [] \/ exists r, concat tl = 32 :: r).
  { intros l tl [|k2 t2 l2 tl2 Hk _]; [left; reflexivity|right]. destruct (doc_bodies _ _ Hk) as (b2 & -> & _). eexists. reflexivity. }
  assert (Ns : forall x v, numeral hexadecimal x v -> ~ In 32 x) by (intros x v Hx; apply (no_char _ _ _ _ Hx); not_in).
  assert (X : b1 = b1' /\ concat ts = concat ts').
  { destruct (Hd _ _ F) as [E1|[r1 E1]], (Hd _ _ F') as [E2|[r2 E2]]; rewrite E1, E2 in *; rewrite ?app_nil_r in E.
    - auto.
    - exfalso. subst b1. apply (Ns _ _ Hb), in_app_iff. right. left. reflexivity.
    - exfalso. subst b1'. apply (Ns _ _ Hb'), in_app_iff. right. left. reflexivity.
    - apply cut_first in E; [|eauto|eauto]. destruct E as [-> ->]. auto. }
  destruct X as [-> X]. rewrite (numeral_value _ hexadecimal_nodup _ _ Hb _ Hb'). rewrite (docs_inj _ _ F P _ _ F' P' X). reflexivity.
Qed.
Lemma line_nonempty e t : shows_line e t -> t <> [].
Proof. destruct 1 as [b ds b1 ts Hb F]. destruct b1; discriminate || (destruct (concat ts); discriminate). Qed.
Theorem lines_unambiguous es : forall es' t, shows shows_line es t -> shows shows_line es' t -> Forall plain_entry_ok es -> Forall plain_entry_ok es' -> es = es'.
Proof.
  induction es as [|e es IH]; intros es' t (ls & F & ->) (ls' & F' & E) P P'.
  - inversion F; subst. destruct F' as [|e' l' es' ls' H F']; [reflexivity|]. apply line_nonempty in H. destruct l'; [contradiction|discriminate E].
  - inversion F as [|? l ? ls1 H F1]; subst. destruct F' as [|e' l' es' ls' H' F']; [apply line_nonempty in H; destruct l; [contradiction|discriminate E]|].
    inversion P; inversion P'; subst. cbn [concat] in E. destruct (line_inj _ _ _ _ _ _ H H' ltac:(assumption) ltac:(assumption) E) as [<- E'].
    f_equal. apply (IH es' (concat ls1)); [exists ls1; auto|exists ls'; auto|assumption|assumption].
Qed.
Theorem blots_unambiguous es : forall es' t, shows shows_blot es t -> shows shows_blot es' t -> map fst es = map fst es'.
Proof.
  induction es as [|e es IH]; intros es' t (ls & F & ->) (ls' & F' & E).
  - inversion F; subst. destruct F' as [|e' l' es' ls' H F']; [reflexivity|]. destruct H as [b ds b1 Hb]. destruct b1; discriminate E.
  - inversion F as [|? l ? ls1 H F1]; subst. destruct F' as [|e' l' es' ls' H' F']; [destruct H as [b ds b1 Hb]; destruct b1; discriminate E|].
    destruct H as [b ds b1 Hb]. destruct H' as [b' ds' b1' Hb']. cbn [concat map fst] in *. rewrite <- !app_assoc in E. change ([10] ++ ?x) with (10 :: x) in E.
    apply cut_first in E; [|apply (no_char _ _ _ _ Hb); not_in|apply (no_char _ _ _ _ Hb'); not_in]. destruct E as [<- E].
    rewrite (numeral_value _ hexadecimal_nodup _ _ Hb _ Hb'). f_equal. apply (IH es' (concat ls1)); [exists ls1; auto|exists ls'; auto].
Qed.

(** * What extract prints *)
Definition entry_of (e : blot_entry) : N * list place := (be_blot e, docs_keys (be_docs e)).
Lemma keys_of_docs ds : keys_of ds = docs_keys ds.
Proof. destruct ds as [[n back]|]; reflexivity. Qed.
Definition in_32 (k : place) : Prop := snd (fst k) < 2 ^ 32 /\ snd k < 2 ^ 32.
Lemma plain_shows out : Forall (fun e => be_blot e < 2 ^ 32 /\ Forall in_32 (docs_keys (be_docs e))) out ->
  shows shows_line (map entry_of out) (extract_text false false out) /\ shows shows_blot (map entry_of out) (extract_text false true out).
Proof.
  intros F. split.
  - exists (map (plain_entry false) out). split; [|reflexivity]. induction F as [|e out [Hb Hd] F IH]; [constructor|]. cbn [map]. constructor; [|exact IH].
    unfold entry_of, plain_entry. constructor; [apply print_hex_numeral, Hb|]. rewrite keys_of_docs. clear -Hd.
    induction Hd as [|[[p s] e2] ds [H1 H2] F IH]; [constructor|]. cbn [map fst snd] in *. constructor; [|exact IH].
    unfold plain_doc. constructor; apply print_dec_numeral; assumption.
  - exists (map (plain_entry true) out). split; [|reflexivity]. induction F as [|e out [Hb Hd] F IH]; [constructor|]. cbn [map]. constructor; [|exact IH].
    unfold entry_of, plain_entry. cbn [app]. constructor. apply print_hex_numeral, Hb.
Qed.

(** * JSON *)
Lemma digits_more k : forall j n, n < 10 ^ N.of_nat k -> (k <= j)%nat -> digits j n = digits k n \/ k = 0%nat.
Proof.
  induction k as [|k IH]; intros j n L Le; [right; reflexivity|]. left. destruct j as [|j]; [lia|]. cbn [digits]. destruct (N.ltb_spec n 10) as [G|G]; [reflexivity|].
  assert (Lk : n / 10 < 10 ^ N.of_nat k).
  { apply N.div_lt_upper_bound; [lia|]. rewrite Nnat.Nat2N.inj_succ, N.pow_succ_r' in L. exact L. }
  destruct (IH j (n / 10) Lk ltac:(lia)) as [->|E]; [reflexivity|]. subst k. cbn in L. lia.
Qed.
Lemma dec_int n : n < 2 ^ 32 -> print_dec n = json_int (Z.of_N n).
Proof.
  intros L. unfold print_dec, json_int. destruct (Z.ltb_spec (Z.of_N n) 0); [lia|]. rewrite N2Z.id.
  destruct (digits_more 10 20 n) as [->|E]; [|lia|reflexivity|discriminate]. eapply N.lt_trans; [exact L|]. vm_compute. reflexivity.
Qed.
Lemma dec_reads n : n < 2 ^ 32 -> reads_as (print_dec n) (JNum (print_dec n)).
Proof. intros L. rewrite dec_int by exact L. apply int_reads. change (2 ^ 32) with 4294967296 in L. lia. Qed.
Lemma elements_read ind d prs vs : Forall2 reads_as prs vs -> prs <> [] -> forall fuel rest,
  (List.length (json_elements (repeat 9%N ind) prs) <= fuel)%nat ->
  scan_elements fuel (skip_space (json_elements (repeat 9 ind) prs ++ [10] ++ repeat 9 d ++ [93] ++ rest)) = Some (vs, rest).
Proof.
  induction 1 as [|pr v prs vs ((c & t & Ec & Hc) & Rd) F IH]; intros Ne fuel rest L; [congruence|].
  assert (E0 : forall x, skip_space ([10] ++ repeat 9 ind ++ pr ++ x) = pr ++ x).
  { intros x. cbn [app skip_space]. change (Json.is_space 10) with true. cbv iota. rewrite skip_tabs, Ec. cbn [app]. apply skip_none, Hc. }
  assert (E1 : forall x, skip_space ([10] ++ repeat 9 d ++ [93] ++ x) = 93 :: x).
  { intros x. cbn [app skip_space]. change (Json.is_space 10) with true. cbv iota. rewrite skip_tabs. cbn [app skip_space]. reflexivity. }
  destruct prs as [|pr2 prs].
  - inversion F; subst. change (json_elements (repeat 9 ind) [c :: t]) with ([10] ++ repeat 9 ind ++ (c :: t)) in *. rewrite <- (app_nil_r (c :: t)) in L.
    rewrite !app_length in L. cbn [List.length] in L. rewrite <- !app_assoc. rewrite E0. destruct fuel as [|fuel]; [lia|]. cbn [scan_elements].
    rewrite Rd; [|cbn [List.length]; lia|reflexivity]. rewrite E1. reflexivity.
  - change (json_elements (repeat 9 ind) (pr :: pr2 :: prs)) with ([10] ++ repeat 9 ind ++ pr ++ [44] ++ json_elements (repeat 9 ind) (pr2 :: prs)) in *.
    rewrite !app_length in L. cbn [List.length] in L. rewrite <- !app_assoc. rewrite E0. destruct fuel as [|fuel]; [lia|]. cbn [scan_elements].
    rewrite Rd; [|lia|reflexivity]. cbn [app skip_space]. change (Json.is_space 44) with false. cbv iota.
    specialize (IH ltac:(discriminate) fuel rest ltac:(lia)). cbn [app] in IH. rewrite IH. reflexivity.
Qed.
Lemma array_reads d prs vs : Forall2 reads_as prs vs -> reads_as (json_array d prs) (JArr vs).
Proof.
  intros F. split; [destruct prs; eexists _, _; split; reflexivity|]. intros fuel rest L St. destruct F as [|pr v prs vs H F].
  - cbn [json_array List.length] in L. destruct fuel as [|fuel]; [lia|]. reflexivity.
  - change (json_array d (pr :: prs)) with ([91] ++ json_elements (repeat 9 (S d)) (pr :: prs) ++ [10] ++ repeat 9 d ++ [93]) in *.
    rewrite !app_length in L. cbn [List.length] in L. destruct fuel as [|fuel]; [lia|].
    rewrite <- !app_assoc. change ([91] ++ ?x) with (91 :: x). cbn [scan_value]. change (91 =? 123) with false. change (91 =? 91) with true. cbv iota.
    pose proof (elements_read (S d) d (pr :: prs) (v :: vs) (Forall2_cons _ _ H F) ltac:(discriminate) fuel rest ltac:(lia)) as M.
    assert (X : exists c t, skip_space (json_elements (repeat 9 (S d)) (pr :: prs) ++ [10] ++ repeat 9 d ++ [93] ++ rest) = c :: t /\ c <> 93).
    { destruct H as [(c & t & Ec & Hc) Rd].
      assert (c <> 93).
      { intros ->. specialize (Rd (S (List.length pr)) [] ltac:(lia) eq_refl). rewrite Ec in Rd. cbn [app scan_value] in Rd. discriminate Rd. }
      assert (Y : forall x, exists y, skip_space ((json_elements (repeat 9 (S d)) (pr :: prs)) ++ x) = c :: y).
      { intros x. destruct prs as [|p2 prs]; [change (json_elements (repeat 9 (S d)) [pr]) with ([10] ++ repeat 9 (S d) ++ pr)|
          change (json_elements (repeat 9 (S d)) (pr :: p2 :: prs)) with ([10] ++ repeat 9 (S d) ++ pr ++ [44] ++ json_elements (repeat 9 (S d)) (p2 :: prs))];
        rewrite <- !app_assoc; change ([10] ++ ?z) with (10 :: z); cbn [skip_space]; change (Json.is_space 10) with true; cbv iota; rewrite skip_tabs, Ec; cbn [app]; rewrite skip_none by exact Hc; eauto. }
      destruct (Y ([10] ++ repeat 9 d ++ [93] ++ rest)) as [y Ey]. exists c, y. split; [exact Ey|assumption]. }
    destruct X as (c & t & Ec & Nc). rewrite Ec in *.
    destruct c as [|p]; [rewrite M; reflexivity|]. do 7 (destruct p as [p|p|]; try (rewrite M; reflexivity)). congruence.
Qed.
Lemma doc_reads p s e rs : is_text p rs -> in_32 (p, s, e) -> exists v, reads_as (json_doc (p, s, e)) v /\ value_doc (p, s, e) v.
Proof.
  intros T [Hs He]. cbn [fst snd] in *. exists (JObj [(bs "Path", JStr p); (bs "Start", JNum (print_dec s)); (bs "End", JNum (print_dec e))]). split.
  - unfold json_doc. apply object_reads; [|discriminate]. constructor; [|constructor; [|constructor; [|constructor]]].
    + split; [|split]; cbn [fst snd]; [reflexivity|reflexivity|]. eapply string_reads, T.
    + split; [|split]; cbn [fst snd]; [reflexivity|reflexivity|]. apply dec_reads, Hs.
    + split; [|split]; cbn [fst snd]; [reflexivity|reflexivity|]. apply dec_reads, He.
  - constructor; apply print_dec_numeral; assumption.
Qed.
Lemma entry_reads e : be_docs e <> None -> be_blot e < 2 ^ 32 -> Forall in_32 (docs_keys (be_docs e)) -> Forall (fun k => text_path (fst (fst k))) (docs_keys (be_docs e)) ->
  exists v, reads_as (json_entry e) v /\ value_of (entry_of e) v.
Proof.
  intros Nn Hb Hd Ht. unfold json_entry, json_docs, entry_of. rewrite <- keys_of_docs in *. destruct (be_docs e) as [ds|] eqn:Ed; [|congruence].
  assert (exists vs, Forall2 reads_as (map json_doc (keys_of (Some ds))) vs /\ Forall2 value_doc (keys_of (Some ds)) vs) as (vs & F & F').
  { clear Ed Nn. generalize dependent (keys_of (Some ds)). induction l as [|[[p s] e2] l IH]; intros Hd Ht; [exists []; split; constructor|].
    inversion Hd; inversion Ht as [|? ? [rs T] Ht']; subst. destruct IH as (vs & F & F'); [assumption|assumption|].
    destruct (doc_reads p s e2 rs T ltac:(assumption)) as (v & R & V). exists (v :: vs). cbn [map]. split; constructor; assumption. }
  exists (JArr [JObj [(bs "Blot", JNum (print_dec (be_blot e))); (bs "Docs", JArr vs)]]). split.
  - apply array_reads. constructor; [|constructor]. apply object_reads; [|discriminate]. constructor; [|constructor; [|constructor]].
    + split; [|split]; cbn [fst snd]; [reflexivity|reflexivity|]. apply dec_reads, Hb.
    + split; [|split]; cbn [fst snd]; [reflexivity|reflexivity|]. apply array_reads, F.
  - constructor; [apply print_dec_numeral, Hb|exact F'].
Qed.
Lemma value_shallow e v : value_of e v -> too_deep v = false.
Proof.
  intros [b ds b' ds' _ F]. unfold too_deep. apply N.ltb_ge. cbn [jdepth map snd fold_right].
  assert (L : fold_right N.max 0 (map jdepth ds') <= 1) by (induction F as [|? ? ? ? [] F IH]; [discriminate|]; cbn [map fold_right jdepth snd]; lia). lia.
Qed.
Lemma stream_reads prs vs : Forall2 (fun pr v => (reads_as pr v /\ too_deep v = false) /\ exists r, pr = 91 :: r) prs vs ->
  forall fuel, (List.length (concat prs) <= fuel)%nat -> stream_loop fuel (concat prs) = Some vs.
Proof.
  induction 1 as [|pr v prs vs [[[_ R] Sh] (r & E)] F IH]; intros fuel L; [destruct fuel; reflexivity|].
  cbn [concat] in *. rewrite app_length in L. destruct fuel as [|fuel]; [rewrite E in L; cbn in L; lia|].
  cbn [stream_loop]. assert (Sk : skip_space (pr ++ concat prs) = pr ++ concat prs) by (rewrite E; reflexivity). rewrite Sk.
  assert (St : stops (concat prs) = true).
  { destruct F as [|p2 v2 prs vs [_ (r2 & E2)] F]; [reflexivity|]. rewrite E2. reflexivity. }
  assert (X : scan_value (2 * List.length (pr ++ concat prs) + 2) (pr ++ concat prs) = Some (v, concat prs)).
  { apply R; [rewrite app_length; lia|exact St]. }
  subst pr. cbn [app List.length] in *. rewrite X, Sh, IH by lia. reflexivity.
Qed.
Lemma two_not_one prs vs : Forall2 (fun pr v => (reads_as pr v /\ too_deep v = false) /\ exists r, pr = 91 :: r) prs vs ->
  json_parse (concat prs) = match vs with [v] => Some v | _ => None end.
Proof.
  intros F. unfold json_parse. destruct F as [|pr v prs vs [[[_ R] Sh] (r & E)] F]; [reflexivity|].
  cbn [concat]. assert (Sk : skip_space (pr ++ concat prs) = pr ++ concat prs) by (rewrite E; reflexivity). rewrite Sk.
  assert (St : stops (concat prs) = true).
  { destruct F as [|p2 v2 prs vs [_ (r2 & E2)] F]; [reflexivity|]. rewrite E2. reflexivity. }
  rewrite (R (2 * List.length (pr ++ concat prs) + 2)%nat (concat prs)); [|rewrite app_length; lia|exact St].
  destruct F as [|p2 v2 prs vs [_ (r2 & E2)] F]; [cbn [concat skip_space]; rewrite Sh; reflexivity|]. cbn [concat]. rewrite E2. cbn [app]. reflexivity.
Qed.
Lemma entries_read out : Forall (fun e => be_docs e <> None /\ be_blot e < 2 ^ 32 /\ Forall in_32 (docs_keys (be_docs e)) /\ Forall (fun k => text_path (fst (fst k))) (docs_keys (be_docs e))) out ->
  exists vs, Forall2 (fun pr v => (reads_as pr v /\ too_deep v = false) /\ exists r, pr = 91 :: r) (map json_entry out) vs /\ Forall2 value_of (map entry_of out) vs.
Proof.
  induction 1 as [|e out (A & B & C & D) F (vs & F1 & F2)]; [exists []; split; constructor|].
  destruct (entry_reads e A B C D) as (v & R & V). exists (v :: vs). cbn [map]. split; constructor; auto. split; [split; [exact R|exact (value_shallow _ _ V)]|]. eexists. reflexivity.
Qed.
