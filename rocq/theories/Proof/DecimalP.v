(** strconv.ParseFloat on decimal numbers. *)
From Coq Require Import String QArith Qround Qpower Lqa.
From Verif Require Import Model.Base Model.Args Model.Float Model.Flags Proof.Tactics Proof.ArgsP Proof.FloatP Proof.NumeralP Spec.Str Spec.Cmdline.
Local Open Scope N_scope.
Local Open Scope list_scope.

(** Rounding depends on the number only. *)
Lemma qlog2_comp x y : (0 < x)%Q -> (x == y)%Q -> qlog2 x = qlog2 y.
Proof.
  intros P E. assert (P' : (0 < y)%Q) by (rewrite <- E; exact P).
  destruct (qlog2_spec x P) as [A B], (qlog2_spec y P') as [A' B'].
  assert (X1 : (qlog2 x < qlog2 y + 1)%Z). { apply two_mono_inv. clear A' B P P'. lra. }
  assert (X2 : (qlog2 y < qlog2 x + 1)%Z). { apply two_mono_inv. clear A B' P P'. lra. }
  lia.
Qed.
Lemma round_pos_comp neg x y : (0 < x)%Q -> (x == y)%Q -> round_pos neg x = round_pos neg y.
Proof.
  intros P E. unfold round_pos. rewrite (qlog2_comp x y P E). set (e := last_digit (qlog2 y)).
  assert (D : (x / 2 ^ e == y / 2 ^ e)%Q) by now rewrite E.
  rewrite (Qfloor_comp _ _ D). set (f := Qfloor (y / 2 ^ e)). now rewrite (Qcompare_comp _ _ D _ _ (Qeq_refl _)).
Qed.
Lemma round64_comp x y : (x == y)%Q -> round64 x = round64 y.
Proof.
  intros E. unfold round64. rewrite (Qcompare_comp _ _ E _ _ (Qeq_refl 0)).
  destruct (Qcompare_spec y 0) as [H|H|H]; [reflexivity| |].
  - apply round_pos_comp; [|now rewrite E]. rewrite E. lra.
  - apply round_pos_comp; [|exact E]. now rewrite E.
Qed.

(** ** The parts of a number *)
Definition dec_char (c : N) : bool := (48 <=? c) && (c <=? 57).
Definition plain_char (c : N) : Prop := 48 <= c <= 57 \/ In c (bs "+-.eE").

Lemma decimal_app s t : forall n, decimal (s ++ t) n = match decimal s n with Some m => decimal t m | None => None end.
Proof. induction s as [|c s IH]; intros n; cbn [app decimal]; [reflexivity|]. destruct ((48 <=? c) && (c <=? 57)); [apply IH|reflexivity]. Qed.
Lemma decimal_ge s : forall n m, decimal s n = Some m -> n <= m.
Proof.
  induction s as [|c s IH]; intros n m; cbn [decimal]; [intros [= <-]; lia|].
  destruct ((48 <=? c) && (c <=? 57)); [|discriminate]. intros H. apply IH in H. lia.
Qed.
Lemma decimal_digits s : forall n, Forall (fun c => dec_char c = true) s -> exists m, decimal s n = Some m.
Proof.
  induction s as [|c s IH]; intros n F; cbn [decimal]; [eauto|]. pose proof (Forall_inv F) as H. unfold dec_char in H. rewrite H.
  apply IH. exact (Forall_inv_tail F).
Qed.
Lemma decimal_inv s : forall n m, decimal s n = Some m -> Forall (fun c => dec_char c = true) s.
Proof.
  induction s as [|c s IH]; intros n m; cbn [decimal]; [constructor|].
  destruct ((48 <=? c) && (c <=? 57)) eqn:D; [|discriminate]. intros H. constructor; [exact D|]. exact (IH _ _ H).
Qed.
Lemma decimal_bound s : forall n m, decimal s n = Some m -> m + 1 <= (n + 1) * 10 ^ N.of_nat (List.length s).
Proof.
  induction s as [|c s IH]; intros n m; cbn [decimal List.length]; [intros [= <-]; cbn; lia|].
  destruct ((48 <=? c) && (c <=? 57)) eqn:D; [|discriminate]. intros H. apply IH in H.
  rewrite Nat2N.inj_succ, N.pow_succ_r'. set (q := 10 ^ N.of_nat (List.length s)) in *. clearbody q.
  assert (n * 10 + (c - 48) + 1 <= (n + 1) * 10) by lia. nia.
Qed.
(** The longest run of digits. *)
Lemma split_digits (s : bytes) : exists ds rest, s = ds ++ rest /\ Forall (fun c => dec_char c = true) ds /\
  match rest with [] => True | c :: _ => dec_char c = false end.
Proof.
  induction s as [|c s IH]; [exists [], []; auto|]. destruct (dec_char c) eqn:D.
  - destruct IH as (ds & rest & -> & F & R). exists (c :: ds), rest. auto.
  - exists [], (c :: s). auto.
Qed.
Lemma dec_value c : dec_char c = true -> digit_value c = Some (c - 48) /\ (c - 48 <? 10) = true /\ (c =? 95) = false /\ (c =? 46) = false.
Proof. unfold dec_char, digit_value. intros H. rewrite H. split; [reflexivity|]. lia. Qed.
Lemma mant_digits ds : forall rest m frac dot dg u m', decimal ds m = Some m' ->
  mantissa 10 (ds ++ rest) m frac dot dg u =
  mantissa 10 rest m' (if dot : bool then frac + List.length ds else frac)%nat dot (dg || negb (beq ds [])) u.
Proof.
  induction ds as [|c ds IH]; intros rest m frac dot dg u m' D.
  - cbn [decimal] in D. injection D as <-. cbn [app List.length beq negb]. rewrite Nat.add_0_r, orb_false_r. now destruct dot.
  - cbn [decimal] in D. destruct ((48 <=? c) && (c <=? 57)) eqn:Dc; [|discriminate].
    destruct (dec_value c Dc) as (V & L & E1 & E2). cbn [app mantissa]. rewrite E1, E2, V, L.
    rewrite (IH rest _ _ _ _ _ m' D). cbn [orb beq negb List.length]. rewrite orb_true_r. destruct dot; [|reflexivity].
    f_equal. lia.
Qed.
Definition stops (dot : bool) (c : N) : Prop := dec_char c = false /\ plain_char c /\ (dot = true \/ c <> 46).
Lemma plain_value c : plain_char c -> dec_char c = false -> (c =? 95) = false /\ match digit_value c with Some d => (d <? 10) = false | None => True end.
Proof.
  unfold dec_char. intros [H|H] D; [lia|].
  change (bs "+-.eE") with [43; 45; 46; 101; 69] in H. cbn [In] in H. repeat (destruct H as [<-|H]; [now split|]). contradiction.
Qed.
Lemma mant_stop rest m frac dot dg u : match rest with [] => True | c :: _ => stops dot c end ->
  mantissa 10 rest m frac dot dg u = (m, frac, dg, u, rest).
Proof.
  destruct rest as [|c r]; intros S; [reflexivity|]. destruct S as (D & P & X). cbn [mantissa].
  destruct (plain_value c P D) as [-> V].
  destruct (N.eqb_spec c 46) as [->|_]; [destruct X as [->|X]; [reflexivity|contradiction]|].
  destruct (digit_value c) as [d|]; [now rewrite V|reflexivity].
Qed.
Lemma mant_dot rest m frac dg u : mantissa 10 (46 :: rest) m frac false dg u = mantissa 10 rest m frac true dg u.
Proof. reflexivity. Qed.
Lemma exp_digits ds : forall e u n, decimal ds e = Some n -> n < 100000 -> exponent ds e u = (n, u, []).
Proof.
  induction ds as [|c ds IH]; intros e u n D L; cbn [decimal exponent] in *; [now injection D as <-|].
  destruct ((48 <=? c) && (c <=? 57)) eqn:Dc; [|discriminate].
  destruct (N.eqb_spec c 95) as [->|_]; [discriminate Dc|]. pose proof (decimal_ge _ _ _ D) as G.
  replace (e <? 10000) with true by lia. now apply IH.
Qed.
Lemma exp_all r : forall e u, Forall plain_char r -> let '(_, _, rest) := exponent r e u in rest = [] -> Forall (fun c => dec_char c = true) r.
Proof.
  induction r as [|c r IH]; intros e u P; cbn [exponent]; [constructor|].
  destruct (N.eqb_spec c 95) as [->|_].
  { pose proof (Forall_inv P) as [X|X]; [lia|]. change (bs "+-.eE") with [43; 45; 46; 101; 69] in X. cbn in X. intuition discriminate. }
  destruct ((48 <=? c) && (c <=? 57)) eqn:Dc.
  - specialize (IH (if e <? 10000 then e * 10 + (c - 48) else e) u (Forall_inv_tail P)).
    destruct (exponent r _ u) as [[x y] z]. intros E. constructor; [exact Dc|now apply IH].
  - discriminate.
Qed.

Lemma special_plain s : Forall plain_char s -> special_float s = None.
Proof.
  assert (W : forall s c w, Forall plain_char s -> c = 105 \/ c = 110 -> is_word_any_case s (c :: w) = false).
  { intros [|x t] c w P C; [reflexivity|]. unfold is_word_any_case. cbn [map beq]. pose proof (Forall_inv P) as X.
    assert (Y : ((if (65 <=? x) && (x <=? 90) then x + 32 else x) =? c) = false).
    { destruct X as [X|X].
      - replace ((65 <=? x) && (x <=? 90)) with false by lia. lia.
      - change (bs "+-.eE") with [43; 45; 46; 101; 69] in X. cbn [In] in X. repeat (destruct X as [<-|X]; [destruct C as [->| ->]; reflexivity|]). contradiction. }
    now rewrite Y. }
  intros P. unfold special_float.
  change (bs "inf") with (105 :: bs "nf"). change (bs "infinity") with (105 :: bs "nfinity"). change (bs "nan") with (110 :: bs "an").
  assert (G : (if is_word_any_case s (105 :: bs "nf") || is_word_any_case s (105 :: bs "nfinity") then Some (Inf false)
     else if is_word_any_case s (110 :: bs "an") then Some NaN else None) = None) by (rewrite !W by auto; reflexivity).
  destruct s as [|c s]; [exact G|].
  assert (H : forall b, (if is_word_any_case s (105 :: bs "nf") || is_word_any_case s (105 :: bs "nfinity") then Some (Inf b) else None) = None)
    by (intros b; rewrite !W by (auto; exact (Forall_inv_tail P)); reflexivity).
  destruct c as [|p]; [exact G|]. do 6 (destruct p as [p|p|]; try exact G); apply H.
Qed.

Lemma drop_signed s t neg : signed s t neg -> match t with c :: _ => c <> 43 /\ c <> 45 | [] => True end ->
  drop_sign s = t /\ match s with 45 :: _ => true | _ => false end = neg.
Proof.
  intros [u|u|u] H; [|now split..]. destruct u as [|c u]; [now split|]. unfold drop_sign.
  replace ((c =? 43) || (c =? 45)) with false by lia. split; [reflexivity|].
  destruct c as [|p]; [reflexivity|]. do 6 (destruct p as [p|p|]; try reflexivity). now destruct H.
Qed.
Lemma signed_drop s : signed s (drop_sign s) (match s with 45 :: _ => true | _ => false end).
Proof.
  destruct s as [|c s]; [constructor|]. unfold drop_sign.
  destruct (N.eqb_spec c 43) as [->|H43]; [apply (s_plus s)|]. destruct (N.eqb_spec c 45) as [->|H45]; [apply (s_minus s)|].
  cbn [orb]. replace (match c with 45 => true | _ => false end) with false; [constructor|].
  destruct c as [|p]; [reflexivity|]. do 6 (destruct p as [p|p|]; try reflexivity). now contradiction H45.
Qed.

Lemma base_plain (t : bytes) : Forall plain_char t ->
  match t with 48 :: c :: ((_ :: _) as r) => if lower c =? 120 then (16, r) else (10, t) | _ => (10, t) end = (10, t).
Proof.
  intros P. destruct t as [|c [|c1 [|c2 r]]]; try reflexivity;
    (destruct c as [|p]; [reflexivity|]; do 6 (destruct p as [p|p|]; try reflexivity)).
  pose proof (Forall_inv (Forall_inv_tail P)) as X. destruct (N.eqb_spec (lower c1) 120) as [E|_]; [|reflexivity].
  apply lower_is in E; [|lia]. destruct X as [X|X]; [lia|]. change (bs "+-.eE") with [43; 45; 46; 101; 69] in X. cbn in X. lia.
Qed.
Lemma mant_parts whole point frac exp m :
  (point = bs "." \/ point = [] /\ frac = []) -> decimal (whole ++ frac) 0 = Some m ->
  match exp with [] => True | c :: _ => stops true c /\ c <> 46 end ->
  mantissa 10 (whole ++ point ++ frac ++ exp) 0 0 false false false =
  (m, List.length frac, negb (beq (whole ++ frac) []), false, exp).
Proof.
  intros Pt D S. rewrite decimal_app in D. destruct (decimal whole 0) as [w|] eqn:Dw; [|discriminate].
  rewrite (mant_digits whole _ 0 0%nat false false false w Dw). cbn [orb].
  destruct Pt as [->|[-> ->]].
  - change (bs "." ++ frac ++ exp) with (46 :: frac ++ exp). rewrite mant_dot.
    rewrite (mant_digits frac exp w 0%nat true _ false m D). rewrite mant_stop by (destruct exp as [|c e]; [exact I|exact (proj1 S)]).
    cbn [Nat.add]. f_equal. f_equal. f_equal. destruct whole, frac; reflexivity.
  - cbn [decimal] in D. injection D as <-. cbn [app List.length]. rewrite app_nil_r.
    rewrite mant_stop; [reflexivity|]. destruct exp as [|c e]; [exact I|]. destruct S as [(A & B & _) X]. unfold stops. auto.
Qed.
(** What read_float does once the digits are read. *)
Definition number (neg : bool) (m : N) (frac : nat) (e : Z) : Q :=
  let q := (inject_Z (Z.of_N m) * pow_q 10 (- Z.of_nat frac) * pow_q 10 e)%Q in if neg then (- q)%Q else q.
Lemma number_is neg m frac e : (number neg m frac e == (if neg then -1 else 1) * inject_Z (Z.of_N m) * inject_Z 10 ^ (e - Z.of_nat frac))%Q.
Proof.
  unfold number, pow_q. assert (T : ~ (inject_Z 10 == 0)%Q) by discriminate.
  replace (e - Z.of_nat frac)%Z with (- Z.of_nat frac + e)%Z by lia. rewrite (Qpower_plus _ _ _ T).
  set (a := (inject_Z 10 ^ (- Z.of_nat frac))%Q). set (b := (inject_Z 10 ^ e)%Q). set (x := inject_Z (Z.of_N m)). clearbody a b x. destruct neg; ring.
Qed.
Definition read_rest (neg : bool) (m : N) (frac : nat) (rest : bytes) : option Q :=
  match rest with
  | [] => Some (number neg m frac 0)
  | c :: r =>
      if lower c =? 101 then
        let '(eneg, r) := match r with 45 :: r' => (true, r') | 43 :: r' => (false, r') | _ => (false, r) end in
        match r with
        | d :: _ =>
            if dec_char d then
              let '(e, under, rest) := exponent r 0 false in
              match rest with [] => Some (number neg m frac (if eneg : bool then - Z.of_N e else Z.of_N e)%Z) | _ => None end
            else None
        | [] => None
        end
      else None
  end.
Lemma exp_under r : forall e, Forall plain_char r -> snd (fst (exponent r e false)) = false.
Proof.
  induction r as [|c r IH]; intros e P; cbn [exponent]; [reflexivity|].
  destruct (N.eqb_spec c 95) as [->|_].
  { pose proof (Forall_inv P) as [X|X]; [lia|]. change (bs "+-.eE") with [43; 45; 46; 101; 69] in X. cbn in X. intuition discriminate. }
  destruct ((48 <=? c) && (c <=? 57)); [apply IH; exact (Forall_inv_tail P)|reflexivity].
Qed.
Lemma exp_sign (r : bytes) : match r with 45 :: r' => (true, r') | 43 :: r' => (false, r') | _ => (false, r) end =
  (match r with 45 :: _ => true | _ => false end, drop_sign r).
Proof.
  destruct r as [|c r]; [reflexivity|]. unfold drop_sign.
  destruct (N.eqb_spec c 43) as [->|H43]; [reflexivity|]. destruct (N.eqb_spec c 45) as [->|H45]; [reflexivity|]. cbn [orb].
  destruct c as [|p]; [reflexivity|]. do 6 (destruct p as [p|p|]; try reflexivity); now contradiction H43 || now contradiction H45.
Qed.
Lemma plain_drop s : Forall plain_char s -> Forall plain_char (drop_sign s).
Proof. intros P. destruct s as [|c s]; [constructor|]. unfold drop_sign. destruct ((c =? 43) || (c =? 45)); [exact (Forall_inv_tail P)|exact P]. Qed.
Lemma read_plain s whole point frac exp m : Forall plain_char s ->
  drop_sign s = whole ++ point ++ frac ++ exp -> (point = bs "." \/ point = [] /\ frac = []) -> decimal (whole ++ frac) 0 = Some m ->
  match exp with [] => True | c :: _ => stops true c /\ c <> 46 end ->
  read_float s = if beq (whole ++ frac) [] then None else read_rest (match s with 45 :: _ => true | _ => false end) m (List.length frac) exp.
Proof.
  intros P E Pt D S. unfold read_float. rewrite (base_plain _ (plain_drop s P)), E, (mant_parts _ _ _ _ _ Pt D S).
  destruct (beq (whole ++ frac) []); [reflexivity|]. cbn [negb]. change (10 =? 16) with false. cbv iota.
  unfold read_rest. set (neg := match s with 45 :: _ => true | _ => false end).
  destruct exp as [|c r]; [reflexivity|]. destruct (lower c =? 101).
  - rewrite exp_sign. set (eneg := match r with 45 :: _ => true | _ => false end).
    assert (Pr : Forall plain_char (drop_sign r)).
    { apply plain_drop. pose proof (plain_drop s P) as Q0. rewrite E in Q0. apply Forall_app in Q0 as [_ Q0]. apply Forall_app in Q0 as [_ Q0].
      apply Forall_app in Q0 as [_ Q0]. exact (Forall_inv_tail Q0). }
    destruct (drop_sign r) as [|d r'] eqn:Er; [reflexivity|]. unfold dec_char. destruct ((48 <=? d) && (d <=? 57)); [|reflexivity].
    pose proof (exp_under _ 0 Pr) as U. destruct (exponent (d :: r') 0 false) as [[e u] rest]. cbn [fst snd] in U. subst u. now destruct rest.
  - reflexivity.
Qed.

Definition short_exponent (s : bytes) : Prop := forall a c b, s = a ++ c :: b -> c = 101 \/ c = 69 -> (List.length b <= 5)%nat.
Lemma drop_app s : exists p, s = p ++ drop_sign s.
Proof. destruct s as [|c s]; [now exists []|]. unfold drop_sign. destruct ((c =? 43) || (c =? 45)); [now exists [c]|now exists []]. Qed.
Lemma digit_plain c : dec_char c = true -> c <> 43 /\ c <> 45.
Proof. unfold dec_char. lia. Qed.

Theorem read_sound s q : Forall plain_char s -> short_exponent s -> read_float s = Some q -> exists q', real s q' /\ (q == q')%Q.
Proof.
  intros P SE R. set (t := drop_sign s) in *.
  assert (Pt : Forall plain_char t) by now apply plain_drop.
  assert (Parts : exists whole point frac exp m, t = whole ++ point ++ frac ++ exp /\ (point = bs "." \/ point = [] /\ frac = []) /\
     decimal (whole ++ frac) 0 = Some m /\ match exp with [] => True | c :: _ => stops true c /\ (point = [] -> c <> 46) end).
  { destruct (split_digits t) as (ds & r & E & F & H). destruct r as [|c r].
    - destruct (decimal_digits ds 0 F) as [m Dm]. exists ds, [], [], [], m. rewrite !app_nil_r in *. auto.
    - rewrite E in Pt. apply Forall_app in Pt as [_ Pt]. destruct (N.eq_dec c 46) as [->|Hc].
      + destruct (split_digits r) as (fs & r' & E' & F' & H'). destruct (decimal_digits (ds ++ fs) 0) as [m Dm]; [now apply Forall_app|].
        exists ds, (bs "."), fs, r', m. rewrite E, E'. split; [reflexivity|]. split; [now left|]. split; [exact Dm|].
        destruct r' as [|c r']; [exact I|]. split; [|discriminate]. split; [exact H'|]. split; [|now left].
        apply Forall_inv_tail in Pt. rewrite E' in Pt. apply Forall_app in Pt as [_ Pt]. exact (Forall_inv Pt).
      + destruct (decimal_digits ds 0 F) as [m Dm]. exists ds, [], [], (c :: r), m. rewrite !app_nil_r. split; [exact E|]. split; [now right|]. split; [exact Dm|].
        split; [|auto]. split; [exact H|]. split; [exact (Forall_inv Pt)|now left]. }
  destruct Parts as (whole & point & frac & exp & m & E & Hp & Dm & HX).
  destruct exp as [|c r].
  - rewrite (read_plain s whole point frac [] m P E Hp Dm I) in R. destruct (beq (whole ++ frac) []) eqn:B; [discriminate|]. cbn [read_rest] in R. injection R as <-.
    eexists. split; [|apply number_is]. eapply r_intro; [apply signed_drop|exact E|exact Hp| |exact Dm|left; now split].
    intros X. rewrite X in B. discriminate.
  - destruct HX as [St Hc]. destruct (N.eq_dec c 46) as [->|H46].
    + (* a second point: nothing is read *)
      exfalso. destruct Hp as [->|[-> _]]; [|now apply Hc].
      revert R. unfold read_float. fold t. rewrite (base_plain t Pt), E.
      rewrite decimal_app in Dm. destruct (decimal whole 0) as [w|] eqn:Dw; [|discriminate].
      rewrite (mant_digits whole _ 0 0%nat false false false w Dw). change (bs "." ++ frac ++ 46 :: r) with (46 :: frac ++ 46 :: r). rewrite mant_dot.
      rewrite (mant_digits frac _ w 0%nat true _ false m Dm). rewrite mant_stop by exact St.
      destruct (false || negb (beq whole []) || negb (beq frac [])); discriminate.
    + rewrite (read_plain s whole point frac (c :: r) m P E Hp Dm (conj St H46)) in R. destruct (beq (whole ++ frac) []) eqn:B; [discriminate|].
      unfold read_rest in R. destruct (N.eqb_spec (lower c) 101) as [L|_]; [|discriminate]. apply lower_is in L; [|lia].
      rewrite exp_sign in R.
      assert (Pr : Forall plain_char (drop_sign r)).
      { apply plain_drop. rewrite E in Pt. apply Forall_app in Pt as [_ Q0]. apply Forall_app in Q0 as [_ Q0]. apply Forall_app in Q0 as [_ Q0]. exact (Forall_inv_tail Q0). }
      assert (Lr : (List.length (drop_sign r) <= 5)%nat).
      { destruct (drop_app s) as [p Es]. fold t in Es. rewrite E, !app_assoc in Es. pose proof (SE _ c r Es ltac:(lia)) as Lr.
        destruct (drop_app r) as [p' Er]. apply (f_equal (@List.length N)) in Er. rewrite app_length in Er. lia. }
      destruct (drop_sign r) as [|d ds] eqn:Er; [discriminate|]. destruct (dec_char d) eqn:Dd; [|discriminate].
      pose proof (exp_all (d :: ds) 0 false Pr) as A. destruct (exponent (d :: ds) 0 false) as [[e u] rest] eqn:X. destruct rest; [|discriminate]. specialize (A eq_refl).
      destruct (decimal_digits (d :: ds) 0 A) as [n Dn].
      assert (Ln : n < 100000).
      { pose proof (decimal_bound _ _ _ Dn) as G. assert (10 ^ N.of_nat (List.length (d :: ds)) <= 10 ^ 5) by (apply N.pow_le_mono_r; lia). change (10 ^ 5) with 100000 in *. lia. }
      rewrite (exp_digits _ _ _ _ Dn Ln) in X. injection X as <- _. injection R as <-.
      eexists. split; [|apply number_is]. eapply r_intro; [apply signed_drop|exact E|exact Hp| |exact Dm|right].
      * intros Y. rewrite Y in B. discriminate.
      * exists [c], r, (d :: ds), (match r with 45 :: _ => true | _ => false end), n.
        split; [destruct L as [->| ->]; [now left|now right]|]. split; [reflexivity|]. split; [rewrite <- Er; apply signed_drop|]. split; [discriminate|]. auto.
Qed.
Theorem read_complete s q : Forall plain_char s -> real s q -> exists q', read_float s = Some q' /\ (q' == q)%Q.
Proof.
  intros P R. destruct R as [s t neg whole point frac exp m e Sg E Hp N0 Dm X].
  pose proof (decimal_inv _ _ _ Dm) as FD. apply Forall_app in FD as [Fw Ff].
  assert (Ht : match t with c :: _ => c <> 43 /\ c <> 45 | [] => True end).
  { subst t. destruct whole as [|c w]; [|exact (digit_plain c (Forall_inv Fw))]. cbn [app].
    destruct Hp as [->|[-> ->]]; [cbn; lia|]. now contradiction N0. }
  destruct (drop_signed s t neg Sg Ht) as [Ed En]. rewrite E in Ed.
  assert (S : match exp with [] => True | c :: _ => stops true c /\ c <> 46 end).
  { destruct X as [[-> _]|(EE & u & ds & eneg & n & HE & -> & _)]; [exact I|].
    destruct HE as [->| ->]; cbn; (split; [|lia]); (split; [reflexivity|]); (split; [|now left]); right; cbn; auto 6. }
  rewrite (read_plain s whole point frac exp m P Ed Hp Dm S), En.
  destruct (beq (whole ++ frac) []) eqn:B; [apply beq_iff in B; contradiction|].
  destruct X as [[-> ->]|(EE & u & ds & eneg & n & HE & -> & Su & Nd & Dn & Ln & ->)].
  - eexists. split; [reflexivity|]. apply number_is.
  - pose proof (decimal_inv _ _ _ Dn) as Fd. destruct ds as [|d ds]; [contradiction|].
    destruct (drop_signed u (d :: ds) eneg Su (digit_plain d (Forall_inv Fd))) as [Eu Enu].
    assert (RR : read_rest neg m (List.length frac) (EE ++ u) = Some (number neg m (List.length frac) (if eneg then - Z.of_N n else Z.of_N n)%Z)).
    { destruct HE as [->| ->]; unfold read_rest; cbn [bs app]; (change (lower 101 =? 101) with true || change (lower 69 =? 101) with true); cbv iota;
        rewrite exp_sign, Eu, Enu, (Forall_inv Fd), (exp_digits _ _ _ _ Dn Ln); reflexivity. }
    rewrite RR. eexists. split; [reflexivity|]. apply number_is.
Qed.
Theorem parse_float_real s f : Forall plain_char s -> short_exponent s ->
  parse_float s = Some f <-> exists q, real s q /\ round64 q = f /\ forall b, f <> Inf b.
Proof.
  intros P SE. unfold parse_float. rewrite (special_plain s P). split.
  - destruct (read_float s) as [q|] eqn:R; [|discriminate]. intros H. destruct (read_sound s q P SE R) as (q' & R' & E).
    exists q'. split; [exact R'|]. rewrite (round64_comp _ _ E) in H. destruct (round64 q') as [x|b|] eqn:Q; injection H as <- || discriminate; (split; [reflexivity|discriminate]).
  - intros (q & R & <- & NI). destruct (read_complete s q P R) as (q' & -> & E). rewrite (round64_comp _ _ E).
    destruct (round64 q) as [x|b|]; try reflexivity. now contradiction (NI b).
Qed.
