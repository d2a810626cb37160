(** strconv.ParseBool, ParseInt with base 0, and ParseFloat on decimal numbers. *)
From Coq Require Import String QArith.
From Verif Require Import Model.Base Model.Args Model.Float Model.Flags Proof.Tactics Proof.ArgsP Spec.Str Spec.Cmdline.
Local Open Scope N_scope.
Local Open Scope list_scope.

Lemma existsb_beq s l : existsb (beq s) l = true <-> In s l.
Proof.
  rewrite existsb_exists. split.
  - intros (x & I & E). apply beq_iff in E. now subst x.
  - intros I. exists s. split; [exact I|]. now apply beq_iff.
Qed.
Lemma parse_bool_truth s b : parse_bool s = Some b <-> truth s b.
Proof.
  unfold parse_bool, truth.
  set (T := map bs ["1"; "t"; "T"; "true"; "TRUE"; "True"]%string).
  set (F := map bs ["0"; "f"; "F"; "false"; "FALSE"; "False"]%string).
  assert (X : In s T -> In s F -> False).
  { subst T F. intros I J. apply in_map_iff in I as (x & <- & I). apply in_map_iff in J as (y & E & J).
    repeat (destruct I as [<-|I]; [repeat (destruct J as [<-|J]; [discriminate E|]); exact J|]). exact I. }
  destruct (existsb (beq s) T) eqn:ET; [apply existsb_beq in ET|].
  - destruct b; [now split|]. split; [discriminate|]. intros J. now contradiction X.
  - assert (NT : ~ In s T) by (intros I; apply existsb_beq in I; congruence).
    destruct (existsb (beq s) F) eqn:EF; [apply existsb_beq in EF|].
    + destruct b; [split; [discriminate|contradiction]|now split].
    + assert (NF : ~ In s F) by (intros I; apply existsb_beq in I; congruence).
      destruct b; split; try discriminate; contradiction.
Qed.

(** ** Letters and digits *)
Lemma below_128 (P : N -> bool) : forallb P (map N.of_nat (seq 0 128)) = true -> forall c, c < 128 -> P c = true.
Proof.
  intros H c L. apply (proj1 (forallb_forall _ _) H). apply in_map_iff. exists (N.to_nat c). split; [apply N2Nat.id|].
  apply in_seq. lia.
Qed.
Lemma lor_ge c d : c <= N.lor c d.
Proof.
  apply N.ldiff_le. apply N.bits_inj. intros i. rewrite N.ldiff_spec, N.lor_spec, N.bits_0.
  now destruct (N.testbit c i).
Qed.
Lemma lower_letter c : 97 <= lower c <= 122 -> (97 <= c <= 122 /\ lower c = c) \/ (65 <= c <= 90 /\ lower c = c + 32).
Proof.
  intros H. pose proof (lor_ge c 32) as G. fold (lower c) in G.
  assert (L : c < 128) by lia.
  pose proof (below_128 (fun c => negb ((97 <=? lower c) && (lower c <=? 122)) ||
     ((97 <=? c) && (c <=? 122) && (lower c =? c) || (65 <=? c) && (c <=? 90) && (lower c =? c + 32))) eq_refl c L) as B.
  cbv beta in B. lia.
Qed.
Lemma lower_small c : 97 <= c <= 122 -> lower c = c.
Proof.
  intros H. pose proof (below_128 (fun c => negb ((97 <=? c) && (c <=? 122)) || (lower c =? c)) eq_refl c ltac:(lia)) as B.
  cbv beta in B. lia.
Qed.
Lemma lower_capital c : 65 <= c <= 90 -> lower c = c + 32.
Proof.
  intros H. pose proof (below_128 (fun c => negb ((65 <=? c) && (c <=? 90)) || (lower c =? c + 32)) eq_refl c ltac:(lia)) as B.
  cbv beta in B. lia.
Qed.
Lemma digit_value_iff base c d : base <= 16 -> (digit_value c = Some d /\ d < base) <-> (digit c d /\ d < base).
Proof.
  intros HB. unfold digit_value, digit. split; intros [H L]; (split; [|exact L]).
  - destruct ((48 <=? c) && (c <=? 57)) eqn:D; [injection H as <-; left; lia|].
    destruct ((97 <=? lower c) && (lower c <=? 122)) eqn:A; [|discriminate]. injection H as <-.
    destruct (lower_letter c ltac:(lia)) as [[R E]|[R E]]; rewrite E in *; right; lia.
  - destruct H as [[H E]|[H [E|E]]].
    + replace ((48 <=? c) && (c <=? 57)) with true by lia. f_equal. lia.
    + replace ((48 <=? c) && (c <=? 57)) with false by lia. rewrite (lower_small c) by lia.
      replace ((97 <=? c) && (c <=? 122)) with true by lia. f_equal. lia.
    + replace ((48 <=? c) && (c <=? 57)) with false by lia. rewrite (lower_capital c) by lia.
      replace ((97 <=? c + 32) && (c + 32 <=? 122)) with true by lia. f_equal. lia.
Qed.
Lemma digit_not_under c d : digit c d -> c <> 95.
Proof. unfold digit. lia. Qed.

(** ** Digits and underscores *)
Definition under_digit (hex : bool) (c : N) : bool := ((48 <=? c) && (c <=? 57)) || (hex && (97 <=? lower c) && (lower c <=? 102)).
Fixpoint urun (hex : bool) (i : seen) (s : bytes) : option seen :=
  match s with
  | [] => Some i
  | c :: r =>
      if under_digit hex c then urun hex SDigit r
      else if c =? 95 then match i with SDigit => urun hex SUnder r | _ => None end
      else match i with SUnder => None | _ => urun hex SOther r end
  end.
Lemma under_urun hex s : forall i, under_loop hex i s = match urun hex i s with Some SUnder | None => false | _ => true end.
Proof.
  induction s as [|c s IH]; intros i; cbn [under_loop urun]; [now destruct i|]. unfold under_digit.
  destruct ((48 <=? c) && (c <=? 57) || hex && (97 <=? lower c) && (lower c <=? 102)); [apply IH|].
  destruct (c =? 95), i; try reflexivity; apply IH.
Qed.
Lemma urun_app hex s t : forall i, urun hex i (s ++ t) = match urun hex i s with Some j => urun hex j t | None => None end.
Proof.
  induction s as [|c s IH]; intros i; cbn [app urun]; [reflexivity|].
  destruct (under_digit hex c); [apply IH|]. destruct (c =? 95), i; try reflexivity; apply IH.
Qed.
Lemma uint_app base s t : forall n u, uint_loop base (s ++ t) n u = match uint_loop base s n u with Some (m, w) => uint_loop base t m w | None => None end.
Proof.
  induction s as [|c s IH]; intros n u; cbn [app uint_loop]; [reflexivity|].
  destruct (c =? 95); [apply IH|]. destruct (digit_value c) as [d|]; [|reflexivity]. destruct (d <? base); [apply IH|reflexivity].
Qed.
Lemma under_digit_of base hex c d : base <= 10 \/ base <= 16 /\ hex = true -> digit c d -> d < base -> under_digit hex c = true.
Proof.
  intros HB D L. unfold under_digit. destruct D as [[D E]|[D E]].
  - replace ((48 <=? c) && (c <=? 57)) with true by lia. reflexivity.
  - destruct HB as [HB|[HB ->]]; [lia|]. cbn [andb].
    assert (X : lower c = 87 + d). { destruct E as [E|E]; [rewrite lower_small; lia|rewrite lower_capital; lia]. }
    rewrite X. lia.
Qed.
Lemma under_digit_95 hex : under_digit hex 95 = false.
Proof. now destruct hex. Qed.

(** One digit more. *)
Lemma uint_digit base n u c d : base <= 16 -> digit c d -> d < base -> uint_loop base [c] n u = Some (n * base + d, u).
Proof.
  intros HB D L. cbn [uint_loop]. destruct (N.eqb_spec c 95) as [E|_]; [now apply digit_not_under in D|].
  destruct (proj2 (digit_value_iff base c d HB) (conj D L)) as [-> _]. apply N.ltb_lt in L. now rewrite L.
Qed.
Lemma uint_inv base n u c m w : base <= 16 -> uint_loop base [c] n u = Some (m, w) ->
  (c = 95 /\ m = n /\ w = true) \/ exists d, digit c d /\ d < base /\ m = n * base + d /\ w = u.
Proof.
  intros HB. cbn [uint_loop]. destruct (N.eqb_spec c 95) as [E|_]; [intros [= <- <-]; auto|].
  destruct (digit_value c) as [d|] eqn:DV; [|discriminate]. destruct (N.ltb_spec d base) as [L|L]; [|discriminate].
  intros [= <- <-]. right. exists d. destruct (proj1 (digit_value_iff base c d HB) (conj DV L)). auto.
Qed.
Section Base.
Variables (base : N) (hex : bool).
Hypothesis HB : base <= 10 \/ base <= 16 /\ hex = true.
Let HB' : base <= 16. Proof. destruct HB as [H|[H _]]; lia. Qed.
Lemma digits_run s n : digits base s n -> forall i, i <> SUnder ->
  (exists u, uint_loop base s 0 false = Some (n, u)) /\ urun hex i s = Some SDigit.
Proof.
  induction 1 as [c d D L|s n c d G IH D L|s n c d G IH D L]; intros i Hi.
  - rewrite (uint_digit _ _ _ _ _ HB' D L). split; [exists false; f_equal; f_equal; lia|].
    cbn [urun]. now rewrite (under_digit_of _ _ _ _ HB D L).
  - destruct (IH i Hi) as [[u U] R]. rewrite uint_app, urun_app, U, R, (uint_digit _ _ _ _ _ HB' D L). split; [now exists u|].
    cbn [urun]. now rewrite (under_digit_of _ _ _ _ HB D L).
  - destruct (IH i Hi) as [[u U] R]. rewrite uint_app, urun_app, U, R.
    change [95; c] with ([95] ++ [c]). rewrite uint_app, urun_app. cbn [uint_loop urun]. rewrite N.eqb_refl, under_digit_95.
    split.
    + exists true. exact (uint_digit base n true c d HB' D L).
    + now rewrite (under_digit_of _ _ _ _ HB D L).
Qed.
Lemma run_digits s : forall n u i, s <> [] -> i <> SUnder -> i <> SDigit \/ hd 0 s <> 95 -> uint_loop base s 0 false = Some (n, u) ->
  match urun hex i s with
  | Some SDigit => digits base s n
  | Some SUnder => exists s', s = s' ++ [95] /\ s' <> [] /\ digits base s' n
  | Some SOther => False
  | None => True
  end.
Proof.
  induction s as [|c s IH] using rev_ind; intros n u i N0 Hi H0 U; [contradiction|].
  rewrite uint_app in U. rewrite urun_app. destruct (uint_loop base s 0 false) as [[m w]|] eqn:Us; [|discriminate].
  destruct s as [|c0 s].
  - cbn [app] in *. clear IH. cbn [uint_loop] in Us. injection Us as <- <-.
    apply uint_inv in U as [(-> & _)|(d & D & L & -> & _)]; [| |exact HB'].
    + cbn [urun hd] in *. rewrite under_digit_95, N.eqb_refl. destruct i; try exact I. destruct H0; contradiction.
    + cbn [urun]. rewrite (under_digit_of _ _ _ _ HB D L). cbn [N.mul N.add]. now apply d_one.
  - specialize (IH m w i ltac:(discriminate) Hi H0 eq_refl).
    destruct (urun hex i (c0 :: s)) as [j|]; [|exact I].
    apply uint_inv in U as [(-> & -> & _)|(d & D & L & -> & _)]; [| |exact HB'].
    + cbn [urun]. rewrite under_digit_95, N.eqb_refl. destruct j; try exact I. exists (c0 :: s). split; [reflexivity|]. split; [discriminate|exact IH].
    + cbn [urun]. rewrite (under_digit_of _ _ _ _ HB D L). destruct j; [contradiction|now apply d_more|].
      destruct IH as (s' & -> & N' & G). rewrite <- app_assoc. now apply d_under.
Qed.
(** Digits as the loop and the check for underscores see them. *)
Lemma digits_iff s n i : i <> SUnder -> i <> SDigit \/ hd 0 s <> 95 -> s <> [] ->
  ((exists u, uint_loop base s 0 false = Some (n, u)) /\ under_loop hex i s = true) <-> digits base s n.
Proof.
  intros Hi H0 N0. rewrite under_urun. split.
  - intros [[u U] R]. pose proof (run_digits s n u i N0 Hi H0 U) as X. destruct (urun hex i s) as [[]|]; try discriminate; [contradiction|exact X].
  - intros G. destruct (digits_run s n G i Hi) as [E R]. rewrite R. auto.
Qed.
(** Without underscores the check is not made; it would succeed. *)
Lemma no_under s : forall n n' i, uint_loop base s n false = Some (n', false) -> under_loop hex i s = true \/ s = [].
Proof.
  assert (T : forall s n u x, uint_loop base s n true = Some (x, u) -> u = true).
  { clear s. induction s as [|c s IH]; intros n u x; cbn [uint_loop]; [now intros [= _ <-]|].
    destruct (c =? 95); [apply IH|]. destruct (digit_value c) as [d|]; [|discriminate]. destruct (d <? base); [apply IH|discriminate]. }
  assert (X : forall s n n' i, uint_loop base s n false = Some (n', false) -> urun hex i s = match s with [] => Some i | _ => Some SDigit end).
  { clear s. induction s as [|c s IH]; intros n n' i; [reflexivity|]. cbn [uint_loop].
    destruct (N.eqb_spec c 95) as [->|Hc]; [intros H; now apply T in H|].
    destruct (digit_value c) as [d|] eqn:DV; [|discriminate]. destruct (N.ltb_spec d base) as [L|L]; [|discriminate].
    destruct (proj1 (digit_value_iff base c d HB') (conj DV L)) as [D _].
    intros H. cbn [urun]. rewrite (under_digit_of _ _ _ _ HB D L). rewrite (IH _ _ SDigit H). now destruct s. }
  intros n n' i H. rewrite under_urun, (X _ _ _ i H). destruct s; auto.
Qed.
End Base.

Lemma uint_flag base s : forall n u m w u', uint_loop base s n u = Some (m, w) -> exists w', uint_loop base s n u' = Some (m, w').
Proof.
  induction s as [|c s IH]; intros n u m w u'; cbn [uint_loop]; [intros [= <- <-]; eauto|].
  destruct (c =? 95); [eauto|]. destruct (digit_value c) as [d|]; [|discriminate]. destruct (d <? base); [apply IH|discriminate].
Qed.
Section Prefix.
Variables (base : N) (hex : bool).
Hypothesis HB : base <= 10 \/ base <= 16 /\ hex = true.
Lemma prefix_iff r n : r <> [] ->
  ((exists u, uint_loop base r 0 false = Some (n, u)) /\ under_loop hex SDigit r = true) <->
  exists u t, (u = [] \/ u = [95]) /\ r = u ++ t /\ digits base t n.
Proof.
  intros N0. destruct r as [|c r]; [contradiction|]. destruct (N.eq_dec c 95) as [->|Hc].
  - transitivity (digits base r n).
    + destruct r as [|c r].
      { split; [|intros H; exfalso; remember [] as e eqn:E; destruct H; try discriminate E; now apply app_eq_nil in E as [_ E]].
        intros [_ H]. cbn [under_loop] in H. change 95 with 95 in H. now destruct hex. }
      rewrite <- (digits_iff base hex HB (c :: r) n SOther); [|discriminate|now left|discriminate].
      assert (E1 : (exists u, uint_loop base (95 :: c :: r) 0 false = Some (n, u)) <-> (exists u, uint_loop base (c :: r) 0 false = Some (n, u))).
      { change (uint_loop base (95 :: c :: r) 0 false) with (uint_loop base (c :: r) 0 true). split; intros [u U]; eapply uint_flag; exact U. }
      rewrite E1. change (under_loop hex SDigit (95 :: c :: r)) with (under_loop hex SDigit ([95] ++ c :: r)).
      rewrite !under_urun, urun_app. cbn [urun]. rewrite under_digit_95, N.eqb_refl.
      split; intros [[u U] H]; (split; [now exists u|]); destruct (under_digit hex c) eqn:UD; try exact H.
      * destruct (c =? 95); discriminate.
      * exfalso. change (c :: r) with ([c] ++ r) in U. rewrite uint_app in U. destruct (uint_loop base [c] 0 false) as [[m w]|] eqn:Uc; [|discriminate].
        apply uint_inv in Uc as [(-> & _)|(d & D & L & _)]; [now cbn in H| |destruct HB as [B|[B _]]; lia].
        rewrite (under_digit_of _ _ _ _ HB D L) in UD. discriminate.
    + split.
      * intros G. exists [95], r. auto.
      * intros (u & t & [->| ->] & E & G); cbn [app] in E; [subst t|now injection E as <-].
        exfalso. apply (digits_run _ _ HB) with (i := SOther) in G as [_ R]; [|discriminate].
        cbn [urun] in R. rewrite under_digit_95, N.eqb_refl in R. discriminate.
  - rewrite (digits_iff base hex HB (c :: r) n SDigit); [|discriminate|now right|discriminate]. split.
    + intros G. exists [], (c :: r). auto.
    + intros (u & t & [->| ->] & E & G); cbn [app] in E; [now subst t|]. injection E as E _. contradiction.
Qed.
End Prefix.

Lemma under_result (o : option (N * bool)) (ok : bool) n :
  (forall m, o = Some (m, false) -> ok = true) ->
  (match o with Some (m, under) => if under && negb ok then None else Some m | None => None end = Some n <->
   (exists u, o = Some (n, u)) /\ ok = true).
Proof.
  intros F. destruct o as [[m u]|].
  - destruct u; cbn [andb].
    + destruct ok; cbn [negb].
      * split; [intros [= <-]; eauto|intros [[u E] _]; now injection E as <- _].
      * split; [discriminate|intros [_ E]; discriminate].
    + rewrite (F m eq_refl). split; [intros [= <-]; eauto|intros [[u E] _]; now injection E as <- _].
  - split; [discriminate|intros [[u E] _]; discriminate].
Qed.

Lemma digits_nonempty base s n : digits base s n -> s <> [].
Proof. intros [c d|s' n' c d|s' n' c d] *; [discriminate|now destruct s'..]. Qed.
(** Letters b, o, x. *)
Lemma lower_is c x : 97 <= x <= 122 -> lower c = x <-> (c = x \/ c = x - 32).
Proof.
  intros Hx. split.
  - intros E. destruct (lower_letter c ltac:(lia)) as [[R E']|[R E']]; lia.
  - intros [->| ->]; [now apply lower_small|rewrite lower_capital; lia].
Qed.
Lemma digits_head base c s n : base <= 16 -> digits base (c :: s) n -> exists d, digit c d /\ d < base.
Proof.
  intros HB H. remember (c :: s) as l eqn:E. revert c s E. induction H as [c0 d D L|s0 n c0 d G IH D L|s0 n c0 d G IH D L]; intros c s E.
  - injection E as <- _. eauto.
  - destruct s0 as [|c1 s0]; [now apply digits_nonempty in G|]. injection E as <- _. now apply (IH c1 s0).
  - destruct s0 as [|c1 s0]; [now apply digits_nonempty in G|]. injection E as <- _. now apply (IH c1 s0).
Qed.
Lemma digits_second base a b s n : base <= 10 -> digits base (a :: b :: s) n -> b <= 57 \/ b = 95.
Proof.
  intros HB H. remember (a :: b :: s) as l eqn:E. revert a b s E. induction H as [c0 d D L|s0 n c0 d G IH D L|s0 n c0 d G IH D L]; intros a b s E.
  - discriminate.
  - destruct s0 as [|c1 [|c2 s0]]; [now apply digits_nonempty in G| |].
    + injection E as -> <- _. unfold digit in D. lia.
    + injection E as -> -> _. now apply (IH a b s0).
  - destruct s0 as [|c1 [|c2 s0]]; [now apply digits_nonempty in G| |].
    + injection E as -> <- _. now right.
    + injection E as -> -> _. now apply (IH a b s0).
Qed.

Lemma parse_uint_decimal c s n : c <> 48 -> parse_uint (c :: s) = Some n <-> digits 10 (c :: s) n.
Proof.
  intros Hc.
  assert (E : parse_uint (c :: s) = match uint_loop 10 (c :: s) 0 false with Some (m, under) => if under && negb (underscore_ok (c :: s)) then None else Some m | None => None end).
  { unfold parse_uint. destruct c as [|p]; [reflexivity|]. do 6 (destruct p as [p|p|]; try reflexivity). now contradiction Hc. }
  rewrite E, <- (digits_iff 10 false (or_introl (N.le_refl _)) (c :: s) n SOther); [|discriminate|now left|discriminate].
  assert (O : forall m u, uint_loop 10 (c :: s) 0 false = Some (m, u) -> underscore_ok (c :: s) = under_loop false SOther (c :: s)).
  { intros m u U. change (c :: s) with ([c] ++ s) in U. rewrite uint_app in U. destruct (uint_loop 10 [c] 0 false) as [[m1 w1]|] eqn:Uc; [|discriminate].
    apply uint_inv in Uc; [|lia]. assert (Y : c <> 43 /\ c <> 45) by (destruct Uc as [(-> & _)|(d & D & _)]; [now split|unfold digit in D; lia]).
    unfold underscore_ok, drop_sign. replace ((c =? 43) || (c =? 45)) with false by lia.
    destruct c as [|p]; [reflexivity|]. do 6 (destruct p as [p|p|]; try reflexivity). now contradiction Hc. }
  rewrite under_result.
  - split; intros [[u U] K]; (split; [now exists u|]); now rewrite (O _ _ U) in *.
  - intros m U. rewrite (O _ _ U). destruct (no_under 10 false (or_introl (N.le_refl _)) (c :: s) 0 m SOther U) as [X|X]; [exact X|discriminate].
Qed.

Definition prefix_base (c : N) : option N :=
  if lower c =? 98 then Some 2 else if lower c =? 111 then Some 8 else if lower c =? 120 then Some 16 else None.
Lemma parse_uint_prefix c r base n : prefix_base c = Some base -> r <> [] ->
  parse_uint (48 :: c :: r) = Some n <-> exists u t, (u = [] \/ u = [95]) /\ r = u ++ t /\ digits base t n.
Proof.
  intros P N0.
  assert (HB : base <= 10 \/ base <= 16 /\ (lower c =? 120) = true).
  { unfold prefix_base in P. destruct (lower c =? 98); [injection P as <-; lia|]. destruct (lower c =? 111); [injection P as <-; lia|].
    destruct (lower c =? 120); [injection P as <-; lia|discriminate]. }
  rewrite <- (prefix_iff base _ HB r n N0).
  assert (E : parse_uint (48 :: c :: r) = match uint_loop base r 0 false with Some (m, under) => if under && negb (under_loop (lower c =? 120) SDigit r) then None else Some m | None => None end).
  { unfold parse_uint. destruct r as [|c1 r]; [contradiction|]. unfold underscore_ok, drop_sign. change ((48 =? 43) || (48 =? 45)) with false. cbv iota.
    unfold prefix_base in P. destruct (lower c =? 98) eqn:E1.
    - injection P as <-. reflexivity.
    - destruct (lower c =? 111) eqn:E2; [injection P as <-; reflexivity|]. destruct (lower c =? 120) eqn:E3; [injection P as <-; reflexivity|discriminate]. }
  rewrite E. apply under_result. intros m U. destruct (no_under base _ HB r 0 m SDigit U) as [X|X]; [exact X|contradiction].
Qed.
Lemma parse_uint_octal r n : (forall c r' base, r = c :: r' -> prefix_base c = Some base -> r' = []) ->
  parse_uint (48 :: r) = Some n <-> digits 8 (48 :: r) n.
Proof.
  intros NP. assert (H8 : 8 <= 10 \/ 8 <= 16 /\ false = true) by (left; lia).
  rewrite <- (digits_iff 8 false H8 (48 :: r) n SOther); [|discriminate|now left|discriminate].
  assert (E : parse_uint (48 :: r) = match uint_loop 8 r 0 false with Some (m, under) => if under && negb (underscore_ok (48 :: r)) then None else Some m | None => None end).
  { unfold parse_uint. destruct r as [|c [|c1 r]]; try reflexivity. specialize (NP c (c1 :: r)). unfold prefix_base in NP.
    destruct (lower c =? 98); [now specialize (NP 2 eq_refl eq_refl)|]. destruct (lower c =? 111); [now specialize (NP 8 eq_refl eq_refl)|].
    destruct (lower c =? 120); [now specialize (NP 16 eq_refl eq_refl)|reflexivity]. }
  change (uint_loop 8 (48 :: r) 0 false) with (uint_loop 8 r 0 false).
  assert (O : forall m u, uint_loop 8 r 0 false = Some (m, u) -> underscore_ok (48 :: r) = under_loop false SOther (48 :: r)).
  { intros m u U. unfold underscore_ok, drop_sign. change ((48 =? 43) || (48 =? 45)) with false. cbv iota.
    destruct r as [|c r]; [reflexivity|].
    destruct ((lower c =? 98) || (lower c =? 111) || (lower c =? 120)) eqn:L; [|reflexivity]. exfalso.
    change (c :: r) with ([c] ++ r) in U. rewrite uint_app in U. destruct (uint_loop 8 [c] 0 false) as [[m1 w1]|] eqn:Uc; [|discriminate].
    assert (X : 97 <= lower c <= 122) by lia. apply lower_letter in X.
    apply uint_inv in Uc as [(-> & _)|(d & D & Ld & _)]; [discriminate L|unfold digit in D; lia|lia]. }
  rewrite E, under_result.
  - split; intros [[u U] K]; (split; [now exists u|]); now rewrite (O _ _ U) in *.
  - intros m U. rewrite (O _ _ U).
    destruct (no_under 8 false H8 (48 :: r) 0 m SOther U) as [X|X]; [exact X|discriminate].
Qed.
Lemma prefix_base_in c base : prefix_base c = Some base <-> In (c, base) [(98, 2); (66, 2); (111, 8); (79, 8); (120, 16); (88, 16)].
Proof.
  unfold prefix_base. split.
  - destruct (lower c =? 98) eqn:E1; [apply N.eqb_eq, lower_is in E1; [|lia]; intros [= <-]; destruct E1 as [->| ->]; cbn; auto|].
    destruct (lower c =? 111) eqn:E2; [apply N.eqb_eq, lower_is in E2; [|lia]; intros [= <-]; destruct E2 as [->| ->]; cbn; auto|].
    destruct (lower c =? 120) eqn:E3; [apply N.eqb_eq, lower_is in E3; [|lia]; intros [= <-]; destruct E3 as [->| ->]; cbn; auto 7|discriminate].
  - cbn [In]. intros H. repeat (destruct H as [[= <- <-]|H]; [reflexivity|]). contradiction.
Qed.
Lemma parse_uint_natural s n : parse_uint s = Some n <-> natural s n.
Proof.
  destruct s as [|c s].
  - split; [discriminate|]. intros H. inversion H.
  - destruct (N.eq_dec c 48) as [->|Hc].
    + assert (C : (exists p r base, s = p :: r /\ prefix_base p = Some base /\ r <> []) \/ (forall p r' base, s = p :: r' -> prefix_base p = Some base -> r' = [])).
      { destruct s as [|p [|p1 r]]; [right; discriminate|right; intros p0 r' b [= <- <-] _; reflexivity|].
        destruct (prefix_base p) as [b|] eqn:Pb; [left; now exists p, (p1 :: r), b|right; intros p0 r' b [= <- <-]; congruence]. }
      destruct C as [(p & r & base & -> & Pb & N0)|NP].
      * rewrite (parse_uint_prefix p r base n Pb N0). split.
        -- intros (u & t & Hu & -> & G). apply (n_prefix p base t n u); [now apply prefix_base_in|exact Hu|exact G].
        -- intros H. remember (48 :: p :: r) as l eqn:El. destruct H as [p0 base0 s0 n0 u I Hu G|s0 n0 G|c0 s0 n0 Hc G].
           ++ injection El as -> El. apply prefix_base_in in I. rewrite Pb in I. injection I as <-. now exists u, s0.
           ++ exfalso. injection El as ->. apply digits_second in G; [|lia]. apply prefix_base_in in Pb. cbn [In] in Pb.
              repeat (destruct Pb as [[= <- _]|Pb]; [lia|]). contradiction.
           ++ injection El as -> _. contradiction.
      * rewrite (parse_uint_octal s n NP). split; [apply n_octal|].
        intros H. remember (48 :: s) as l eqn:El. destruct H as [p0 base0 s0 n0 u I Hu G|s0 n0 G|c0 s0 n0 Hc G].
        -- exfalso. injection El as <-. apply prefix_base_in in I. specialize (NP p0 (u ++ s0) base0 eq_refl I).
           apply app_eq_nil in NP as [_ ->]. now apply digits_nonempty in G.
        -- now injection El as ->.
        -- injection El as -> _. contradiction.
    + rewrite (parse_uint_decimal c s n Hc). split; [now apply n_decimal|].
      intros H. remember (c :: s) as l eqn:El. destruct H as [p0 base0 s0 n0 u I Hu G|s0 n0 G|c0 s0 n0 Hc0 G].
      * now injection El as <- _.
      * now injection El as <- _.
      * injection El as -> ->. exact G.
Qed.
Lemma natural_head s n : natural s n -> exists c r, s = c :: r /\ c <> 43 /\ c <> 45.
Proof.
  intros [p b s0 n0 u I Hu G|s0 n0 G|c s0 n0 Hc G].
  - do 2 eexists. split; [reflexivity|]. lia.
  - do 2 eexists. split; [reflexivity|]. lia.
  - exists c, s0. split; [reflexivity|]. apply digits_head in G as (d & D & _); [|lia]. unfold digit in D. lia.
Qed.
Theorem parse_int_integer s z : parse_int s = Some z <-> integer s z.
Proof.
  unfold integer. destruct s as [|c r].
  - split; [discriminate|]. intros (_ & t & n & H & E). apply natural_head in H as (c & r & -> & _).
    destruct E as [[[E|E] _]|[E _]]; discriminate.
  - cbn [parse_int].
    assert (P : forall t n, parse_uint t = Some n -> natural t n) by (intros t n; apply parse_uint_natural).
    assert (X : (2 ^ 63 = 9223372036854775808)%N) by reflexivity.
    split.
    + destruct (N.eqb_spec c 45) as [->|H45]; cbn [orb].
      * destruct (parse_uint r) as [n|] eqn:U; [|discriminate]. destruct (N.leb_spec n (2 ^ 63)) as [L|L]; [|discriminate].
        intros [= <-]. split; [lia|]. exists r, n. split; [now apply P|]. now right.
      * destruct (N.eqb_spec c 43) as [->|H43].
        -- destruct (parse_uint r) as [n|] eqn:U; [|discriminate]. destruct (N.ltb_spec n (2 ^ 63)) as [L|L]; [|discriminate].
           intros [= <-]. split; [lia|]. exists r, n. split; [now apply P|]. left. auto.
        -- destruct (parse_uint (c :: r)) as [n|] eqn:U; [|discriminate]. destruct (N.ltb_spec n (2 ^ 63)) as [L|L]; [|discriminate].
           intros [= <-]. split; [lia|]. exists (c :: r), n. split; [now apply P|]. left. auto.
    + intros (R & t & n & H & E). pose proof (natural_head t n H) as (c0 & r0 & Et & H43 & H45). apply parse_uint_natural in H.
      destruct E as [[[E|E] ->]|[E ->]].
      * rewrite <- E in *. injection Et as <- <-. apply N.eqb_neq in H43, H45. rewrite H43, H45. cbn [orb]. rewrite H.
        replace (n <? 2 ^ 63) with true by lia. reflexivity.
      * change (bs "+" ++ t) with (43 :: t) in E. injection E as -> ->. cbn [orb]. change (43 =? 45) with false. change (43 =? 43) with true. cbn [orb].
        rewrite H. replace (n <? 2 ^ 63) with true by lia. reflexivity.
      * change (bs "-" ++ t) with (45 :: t) in E. injection E as -> ->. change (45 =? 45) with true. cbn [orb].
        rewrite H. replace (n <=? 2 ^ 63) with true by lia. reflexivity.
Qed.
