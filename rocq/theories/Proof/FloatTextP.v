(** strconv.ParseFloat on all strings. *)
From Coq Require Import String QArith Qround Qpower Lqa.
From Verif Require Import Model.Base Model.Args Model.Float Model.Flags Proof.Tactics Proof.ArgsP Proof.FloatP Proof.NumeralP Proof.DecimalP Spec.Str Spec.Cmdline Spec.FloatText.
From Coq Require Import Lia.
Local Open Scope N_scope.
Local Open Scope list_scope.

Lemma ndigits_app s t : ndigits (s ++ t) = (ndigits s + ndigits t)%nat.
Proof. unfold ndigits. rewrite filter_app, app_length. reflexivity. Qed.
Lemma ndigits_cons c s : ndigits (c :: s) = ((if (c =? 95)%N then 0 else 1) + ndigits s)%nat.
Proof. unfold ndigits. cbn [filter]. destruct (c =? 95); reflexivity. Qed.

(** ** The loops *)
Lemma mant_run base w : forall r m un m' un' frac dot dg, uint_loop base w m un = Some (m', un') ->
  mantissa base (w ++ r) m frac dot dg un =
  mantissa base r m' (if dot : bool then frac + ndigits w else frac)%nat dot (dg || negb (ndigits w =? 0)%nat) un'.
Proof.
  induction w as [|c w IH]; intros r m un m' un' frac dot dg U.
  - cbn [uint_loop] in U. injection U as <- <-. cbn [app]. change (ndigits []) with 0%nat. cbn [Nat.eqb negb]. rewrite orb_false_r, Nat.add_0_r. destruct dot; reflexivity.
  - cbn [uint_loop app mantissa] in *. rewrite ndigits_cons. destruct (N.eqb_spec c 95) as [->|Hc].
    + rewrite (IH _ _ _ _ _ _ _ _ U). reflexivity.
    + destruct (digit_value c) as [d|] eqn:DV; [|discriminate]. destruct (N.ltb_spec d base) as [L|L]; [|discriminate].
      destruct (N.eqb_spec c 46) as [->|_]; [discriminate DV|]. rewrite (IH _ _ _ _ _ _ _ _ U). cbn [orb Nat.add Nat.eqb negb]. rewrite orb_true_r.
      destruct dot; [|reflexivity]. f_equal. lia.
Qed.
Definition stop (base : N) (r : bytes) : Prop :=
  match r with [] => True | c :: _ => c <> 95 /\ match digit_value c with Some d => base <= d | None => True end end.
Lemma uint_split base s : forall m un, exists w r m' un', s = w ++ r /\ uint_loop base w m un = Some (m', un') /\ stop base r.
Proof.
  induction s as [|c s IH]; intros m un; [exists [], [], m, un; split; [reflexivity|split; [reflexivity|exact Logic.I]]|].
  destruct (N.eq_dec c 95) as [->|Hc].
  - destruct (IH m true) as (w & r & m' & un' & -> & U & S). exists (95 :: w), r, m', un'. split; [reflexivity|]. split; [exact U|exact S].
  - destruct (digit_value c) as [d|] eqn:DV.
    + destruct (N.ltb_spec d base) as [L|L].
      * destruct (IH (m * base + d) un) as (w & r & m' & un' & -> & U & S). exists (c :: w), r, m', un'. split; [reflexivity|]. split; [|exact S].
        cbn [uint_loop]. rewrite (proj2 (N.eqb_neq c 95) Hc), DV, (proj2 (N.ltb_lt d base) L). exact U.
      * exists [], (c :: s), m, un. split; [reflexivity|]. split; [reflexivity|]. cbn [stop]. rewrite DV. auto.
    + exists [], (c :: s), m, un. split; [reflexivity|]. split; [reflexivity|]. cbn [stop]. rewrite DV. auto.
Qed.
Lemma mant_stop base r m frac dot dg un : stop base r -> dot = true \/ hd 0 r <> 46 -> mantissa base r m frac dot dg un = (m, frac, dg, un, r).
Proof.
  destruct r as [|c r]; intros S D; [reflexivity|]. cbn [stop hd mantissa] in *. destruct S as [S1 S2]. rewrite (proj2 (N.eqb_neq c 95) S1).
  destruct (N.eqb_spec c 46) as [->|Hc].
  - destruct D as [->|D]; [reflexivity|contradiction].
  - destruct (digit_value c) as [d|]; [|reflexivity]. destruct (N.ltb_spec d base); [lia|reflexivity].
Qed.
Lemma uint_shift base w : forall m un m' un', uint_loop base w m un = Some (m', un') ->
  exists n, uint_loop base w 0 un = Some (n, un') /\ m' = m * base ^ N.of_nat (ndigits w) + n.
Proof.
  assert (G : forall a m un m' un', uint_loop base w (m + a) un = Some (m', un') -> exists n, uint_loop base w a un = Some (n, un') /\ m' = m * base ^ N.of_nat (ndigits w) + n).
  { induction w as [|c w IH]; intros a m un m' un' U.
    - cbn [uint_loop] in *. injection U as <- <-. exists a. split; [reflexivity|]. change (ndigits []) with 0%nat. cbn. lia.
    - cbn [uint_loop] in *. rewrite ndigits_cons. destruct (c =? 95); [exact (IH _ _ _ _ _ U)|]. destruct (digit_value c) as [d|]; [|discriminate]. destruct (d <? base); [|discriminate].
      replace ((m + a) * base + d) with (m * base + (a * base + d)) in U by lia. destruct (IH _ _ _ _ _ U) as (n & E & ->). exists n. split; [exact E|].
      replace (N.of_nat (1 + ndigits w)) with (N.succ (N.of_nat (ndigits w))) by lia. rewrite N.pow_succ_r'. lia. }
  intros m un m' un' U. apply G. rewrite N.add_0_r. exact U.
Qed.
Lemma uint_shift' base w m un n un' : uint_loop base w 0 un = Some (n, un') -> uint_loop base w m un = Some (m * base ^ N.of_nat (ndigits w) + n, un').
Proof.
  intros U. assert (E : exists m', uint_loop base w m un = Some (m', un')).
  { revert U. generalize 0 at 1. revert m un n. induction w as [|c w IH]; intros m un n a U; cbn [uint_loop] in *; [injection U as _ <-; eauto|].
    destruct (c =? 95); [eauto|]. destruct (digit_value c); [|discriminate]. destruct (_ <? _); [eauto|discriminate]. }
  destruct E as [m' E]. rewrite E. destruct (uint_shift _ _ _ _ _ _ E) as (n' & E' & ->). rewrite E' in U. injection U as ->. reflexivity.
Qed.
Lemma uint_true base s : forall n u x, uint_loop base s n true = Some (x, u) -> u = true.
Proof.
  induction s as [|c s IH]; intros n u x; cbn [uint_loop]; [now intros [= _ <-]|].
  destruct (c =? 95); [apply IH|]. destruct (digit_value c) as [d|]; [|discriminate]. destruct (d <? base); [apply IH|discriminate].
Qed.
Lemma plain_run base hex : base <= 10 \/ base <= 16 /\ hex = true -> forall s n n' i, uint_loop base s n false = Some (n', false) ->
  urun hex i s = match s with [] => Some i | _ => Some SDigit end.
Proof.
  intros HB. assert (HB' : base <= 16) by (destruct HB as [H|[H _]]; lia).
  induction s as [|c s IH]; intros n n' i; [reflexivity|]. cbn [uint_loop].
  destruct (N.eqb_spec c 95) as [->|Hc]; [intros H; now apply uint_true in H|].
  destruct (digit_value c) as [d|] eqn:DV; [|discriminate]. destruct (N.ltb_spec d base) as [L|L]; [|discriminate].
  destruct (proj1 (digit_value_iff base c d HB') (conj DV L)) as [D _].
  intros H. cbn [urun]. rewrite (under_digit_of _ _ _ _ HB D L). rewrite (IH _ _ SDigit H). now destruct s.
Qed.
Lemma uint_chars s : forall n u n' u', uint_loop 10 s n u = Some (n', u') -> Forall (fun c => 48 <= c <= 57 \/ c = 95) s.
Proof.
  induction s as [|c s IH]; intros n u n' u' U; [constructor|]. cbn [uint_loop] in U. destruct (N.eqb_spec c 95) as [->|Hc].
  - constructor; [auto|exact (IH _ _ _ _ U)].
  - destruct (digit_value c) as [d|] eqn:DV; [|discriminate]. destruct (N.ltb_spec d 10) as [L|L]; [|discriminate].
    constructor; [|exact (IH _ _ _ _ U)]. destruct (proj1 (digit_value_iff 10 c d ltac:(lia)) (conj DV L)) as [D _]. unfold digit in D. lia.
Qed.

(** The exponent. *)
Lemma dec_digit c : match digit_value c with Some d => d < 10 | None => False end <-> (48 <=? c) && (c <=? 57) = true.
Proof.
  unfold digit_value. destruct ((48 <=? c) && (c <=? 57)) eqn:E; [split; [reflexivity|lia]|].
  destruct ((97 <=? lower c) && (lower c <=? 122)) eqn:A; split; try discriminate; try tauto. lia.
Qed.
Lemma five_step n x d : d < 10 -> first_five n x -> first_five (n * 10 + d) (if x <? 10000 then x * 10 + d else x).
Proof.
  intros L [[A ->]|(k & -> & B & C)].
  - destruct (N.ltb_spec n 10000); [left; split; lia|]. right. exists 1. rewrite N.pow_1_r. split; [|lia].
    symmetry. rewrite N.div_add_l by lia. rewrite (N.div_small d 10) by lia. lia.
  - destruct (N.ltb_spec (n / 10 ^ k) 10000); [lia|]. right. exists (k + 1). split; [|lia].
    rewrite N.pow_add_r, N.pow_1_r, (N.mul_comm (10 ^ k)), <- N.div_div; [|lia|apply N.pow_nonzero; lia]. f_equal.
    symmetry. rewrite N.div_add_l by lia. rewrite (N.div_small d 10) by lia. lia.
Qed.
Lemma exp_run w : forall n un n' un' x, uint_loop 10 w n un = Some (n', un') -> first_five n x ->
  exists x', first_five n' x' /\ exponent w x un = (x', un', []).
Proof.
  induction w as [|c w IH]; intros n un n' un' x U F.
  - cbn [uint_loop exponent] in *. injection U as <- <-. eauto.
  - cbn [uint_loop exponent] in *. destruct (c =? 95); [exact (IH _ _ _ _ _ U F)|].
    pose proof (dec_digit c) as D. destruct (digit_value c) as [d|] eqn:DV; [|discriminate]. destruct (N.ltb_spec d 10) as [L|L]; [|discriminate].
    rewrite (proj1 D L). assert (E : c - 48 = d). { unfold digit_value in DV. rewrite (proj1 D L) in DV. injection DV as <-. reflexivity. }
    rewrite E. exact (IH _ _ _ _ _ U (five_step n x d L F)).
Qed.
Lemma exp_inv w : forall n un x x' un', exponent w x un = (x', un', []) -> exists n', uint_loop 10 w n un = Some (n', un').
Proof.
  induction w as [|c w IH]; intros n un x x' un' E; cbn [uint_loop exponent] in *; [injection E as <- <-; eauto|].
  destruct (c =? 95); [exact (IH _ _ _ _ _ E)|]. pose proof (dec_digit c) as D.
  destruct ((48 <=? c) && (c <=? 57)); [|discriminate]. destruct D as [_ D]. specialize (D eq_refl). destruct (digit_value c) as [d|]; [|contradiction].
  rewrite (proj2 (N.ltb_lt d 10) D). exact (IH _ _ _ _ _ E).
Qed.
Lemma first_five_fun n x y : first_five n x -> first_five n y -> x = y.
Proof.
  assert (W : forall j k, n / 10 ^ j < 100000 -> 10000 <= n / 10 ^ k -> k < j + 1).
  { intros j k A B. destruct (N.lt_ge_cases k (j + 1)) as [|H]; [assumption|exfalso].
    assert (E : 10 ^ k = 10 ^ j * (10 * 10 ^ (k - j - 1))). { rewrite <- N.pow_succ_r', <- N.pow_add_r. f_equal. lia. }
    rewrite E, <- N.div_div in B by (try apply N.neq_mul_0; try split; try apply N.pow_nonzero; lia).
    assert (n / 10 ^ j / (10 * 10 ^ (k - j - 1)) <= n / 10 ^ j / 10).
    { apply N.div_le_compat_l. split; [lia|]. pose proof (N.pow_nonzero 10 (k - j - 1)). nia. }
    pose proof (N.div_lt_upper_bound (n / 10 ^ j) 10 10000). lia. }
  intros [[A ->]|(k & -> & B & C)] [[A' ->]|(j & -> & B' & C')]; try lia.
  pose proof (W j k ltac:(lia) ltac:(lia)). pose proof (W k j ltac:(lia) ltac:(lia)). f_equal. f_equal. lia.
Qed.

(** ** readFloat *)
Definition value (base : N) (neg : bool) (m : N) (k : nat) (e : Z) : Q :=
  let q := (inject_Z (Z.of_N m) * pow_q (Z.of_N base) (- Z.of_nat k) * pow_q (if base =? 16 then 2 else 10) e)%Q in
  (if neg then - q else q)%Q.
Definition finish (base : N) (s : bytes) (neg : bool) (m : N) (k : nat) (e : Z) (under : bool) (rest : bytes) : option Q :=
  match rest with
  | _ :: _ => None
  | [] => if under && negb (underscore_ok s) then None else Some (value base neg m k e)
  end.
Definition body (base : N) (s : bytes) (neg : bool) (t : bytes) : option Q :=
  let '(m, frac, digits, under, rest) := mantissa base t 0 0 false false false in
  if negb digits then None
  else match rest with
       | c :: r =>
           if lower c =? (if base =? 16 then 112 else 101) then
             let '(eneg, r) := match r with 45 :: r' => (true, r') | 43 :: r' => (false, r') | _ => (false, r) end in
             match r with
             | d :: _ =>
                 if (48 <=? d) && (d <=? 57) then
                   let '(e, under, rest) := exponent r 0 under in
                   finish base s neg m frac (if eneg : bool then - Z.of_N e else Z.of_N e)%Z under rest
                 else None
             | [] => None
             end
           else if base =? 16 then None else finish base s neg m frac 0%Z under rest
       | [] => if base =? 16 then None else finish base s neg m frac 0%Z under rest
       end.
Definition prefix (t : bytes) : N * bytes :=
  match t with
  | 48 :: c :: ((_ :: _) as r) => if lower c =? 120 then (16, r) else (10, t)
  | _ => (10, t)
  end.
Lemma read_float_body s : read_float s = body (fst (prefix (drop_sign s))) s (match s with 45 :: _ => true | _ => false end) (snd (prefix (drop_sign s))).
Proof. unfold read_float, prefix. set (t := drop_sign s). destruct (match t with 48 :: c :: ((_ :: _) as r) => if lower c =? 120 then (16, r) else (10, t) | _ => (10, t) end) as [base b]. reflexivity. Qed.

Definition letters (base : N) : bytes := if base =? 16 then bs "pP" else bs "eE".
Inductive expo (base : N) (u : bool) : bytes -> Z -> bool -> Prop :=
| ex_ c sg d ds n x un : In c (letters base) -> (sg = [] \/ sg = [43] \/ sg = [45]) -> dec_char d = true ->
    uint_loop 10 (d :: ds) 0 u = Some (n, un) -> first_five n x ->
    expo base u (c :: sg ++ d :: ds) (if beq sg [45] then - Z.of_N x else Z.of_N x) un.
Inductive shape (base : N) : bytes -> N -> nat -> Z -> bool -> Prop :=
| sh_ w1 pt w2 n1 u1 m u2 x e un : uint_loop base w1 0 false = Some (n1, u1) -> uint_loop base w2 n1 u1 = Some (m, u2) ->
    (pt = [46] \/ pt = [] /\ w2 = []) -> (ndigits w1 + ndigits w2 <> 0)%nat ->
    (x = [] /\ e = 0%Z /\ un = u2 /\ base = 10 \/ expo base u2 x e un) ->
    shape base (w1 ++ pt ++ w2 ++ x) m (ndigits w2) e un.

Lemma letters_iff base c : In c (letters base) <-> (lower c =? (if base =? 16 then 112 else 101)) = true.
Proof.
  unfold letters. rewrite N.eqb_eq. split.
  - destruct (base =? 16); intros H; repeat (destruct H as [<-|H]; [reflexivity|]); destruct H.
  - intros H. destruct (lower_letter c) as [[R E]|[R E]]; [destruct (base =? 16); lia| |]; rewrite E in H; destruct (base =? 16); cbn [bs In]; cbn; lia.
Qed.
Lemma mant_parts base w1 pt w2 x n1 u1 m u2 : uint_loop base w1 0 false = Some (n1, u1) -> uint_loop base w2 n1 u1 = Some (m, u2) ->
  (pt = [46] \/ pt = [] /\ w2 = []) -> stop base x -> (pt = [46] \/ hd 0 x <> 46) ->
  mantissa base (w1 ++ pt ++ w2 ++ x) 0 0 false false false = (m, ndigits w2, negb (ndigits w1 =? 0)%nat || negb (ndigits w2 =? 0)%nat, u2, x).
Proof.
  intros U1 U2 P S D. rewrite (mant_run _ _ _ _ _ _ _ _ _ _ U1). cbn [orb]. destruct P as [->|[-> ->]].
  - cbn [app mantissa]. change (46 =? 95) with false. change (46 =? 46) with true. cbv iota.
    rewrite (mant_run _ _ _ _ _ _ _ _ _ _ U2). rewrite Nat.add_0_l. apply mant_stop; [exact S|left; reflexivity].
  - cbn [uint_loop] in U2. injection U2 as <- <-. cbn [app]. change (ndigits []) with 0%nat. cbn [Nat.eqb negb]. rewrite orb_false_r.
    apply mant_stop; [exact S|]. destruct D as [D|D]; [discriminate|right; exact D].
Qed.
Lemma mant_split base t : exists w1 pt w2 x n1 u1 m u2, t = w1 ++ pt ++ w2 ++ x /\ uint_loop base w1 0 false = Some (n1, u1) /\ uint_loop base w2 n1 u1 = Some (m, u2) /\
  (pt = [46] \/ pt = [] /\ w2 = []) /\ stop base x /\ (pt = [46] \/ hd 0 x <> 46).
Proof.
  destruct (uint_split base t 0 false) as (w1 & r1 & n1 & u1 & -> & U1 & S1). destruct (N.eq_dec (hd 0 r1) 46) as [E|E].
  - destruct r1 as [|c r1]; [discriminate|]. cbn [hd] in E. subst c. destruct (uint_split base r1 n1 u1) as (w2 & x & m & u2 & -> & U2 & S2).
    exists w1, [46], w2, x, n1, u1, m, u2. split; [reflexivity|]. repeat split; auto.
  - exists w1, [], [], r1, n1, u1, n1, u1. split; [reflexivity|]. repeat split; auto.
Qed.
Lemma expo_stop base u x e un : base = 10 \/ base = 16 -> expo base u x e un -> stop base x /\ hd 0 x <> 46.
Proof.
  intros B [c sg d ds n y un' C _ _ _ _]. cbn [stop hd].
  destruct B as [->| ->]; cbn in C; destruct C as [<-|[<-|[]]]; (split; [split; [discriminate|vm_compute; discriminate]|discriminate]).
Qed.
Lemma body_shape base s neg t q : base = 10 \/ base = 16 ->
  body base s neg t = Some q <-> exists m k e un, shape base t m k e un /\ (un = true -> underscore_ok s = true) /\ q = value base neg m k e.
Proof.
  intros B. split.
  - intros H. destruct (mant_split base t) as (w1 & pt & w2 & x & n1 & u1 & m & u2 & -> & U1 & U2 & P & S & D).
    unfold body in H. rewrite (mant_parts _ _ _ _ _ _ _ _ _ U1 U2 P S D) in H.
    assert (N0 : (ndigits w1 + ndigits w2 <> 0)%nat).
    { intros E. replace (ndigits w1) with 0%nat in H by lia. replace (ndigits w2) with 0%nat in H by lia. discriminate. }
    destruct (negb (negb (ndigits w1 =? 0)%nat || negb (ndigits w2 =? 0)%nat)); [discriminate|].
    assert (F : forall e un, finish base s neg m (ndigits w2) e un [] = Some q -> (un = true -> underscore_ok s = true) /\ q = value base neg m (ndigits w2) e).
    { intros e un E. cbn [finish] in E. destruct un, (underscore_ok s); cbn [andb negb] in E; try discriminate; injection E as <-; auto. }
    destruct x as [|c r].
    + destruct (N.eqb_spec base 16) as [_|N16]; [discriminate|]. exists m, (ndigits w2), 0%Z, u2. split; [|exact (F _ _ H)].
      apply (sh_ base w1 pt w2 n1 u1 m u2 [] 0%Z u2 U1 U2 P N0). left. repeat split; auto. destruct B; [assumption|contradiction].
    + destruct (lower c =? (if base =? 16 then 112 else 101)) eqn:Lc.
      * apply letters_iff in Lc.
        assert (X : exists sg r', r = sg ++ r' /\ (sg = [] \/ sg = [43] \/ sg = [45]) /\ match r with 45 :: r' => (true, r') | 43 :: r' => (false, r') | _ => (false, r) end = (beq sg [45], r')).
        { destruct r as [|a r]; [exists [], []; auto|]. destruct (N.eq_dec a 45) as [->|A1]; [exists [45], r; auto|]. destruct (N.eq_dec a 43) as [->|A2]; [exists [43], r; auto|].
          exists [], (a :: r). split; [reflexivity|]. split; [auto|]. destruct a as [|a]; [reflexivity|]. do 6 (destruct a as [a|a|]; try reflexivity); contradiction. }
        destruct X as (sg & r' & -> & Sg & X). rewrite X in H. clear X. destruct r' as [|d ds]; [discriminate|].
        destruct ((48 <=? d) && (d <=? 57)) eqn:Dd; [|discriminate].
        destruct (exponent (d :: ds) 0 u2) as [[e un] rest] eqn:Ex. destruct rest as [|? ?]; [|discriminate].
        destruct (exp_inv _ 0 _ _ _ _ Ex) as [n Un]. destruct (exp_run _ _ _ _ _ 0 Un ltac:(left; split; [lia|reflexivity])) as (x' & F5 & Ex').
        rewrite Ex in Ex'. injection Ex' as <-.
        exists m, (ndigits w2), (if beq sg [45] then (- Z.of_N e)%Z else Z.of_N e), un. split; [|exact (F _ _ H)].
        apply (sh_ base w1 pt w2 n1 u1 m u2 _ _ _ U1 U2 P N0). right. exact (ex_ base u2 c sg d ds n e un Lc Sg Dd Un F5).
      * destruct (base =? 16); discriminate.
  - intros (m & k & e & un & Sh & O & ->). destruct Sh as [w1 pt w2 n1 u1 m u2 x e un U1 U2 P N0 X].
    assert (S : stop base x /\ hd 0 x <> 46) by (destruct X as [(-> & _)|X]; [split; [exact Logic.I|discriminate]|exact (expo_stop _ _ _ _ _ B X)]). destruct S as [S Hd].
    unfold body. rewrite (mant_parts _ _ _ _ _ _ _ _ _ U1 U2 P S (or_intror Hd)).
    assert (E : negb (negb (ndigits w1 =? 0)%nat || negb (ndigits w2 =? 0)%nat) = false).
    { destruct (Nat.eqb_spec (ndigits w1) 0); [|reflexivity]. destruct (Nat.eqb_spec (ndigits w2) 0); [lia|reflexivity]. }
    rewrite E. assert (F : forall e, finish base s neg m (ndigits w2) e un [] = Some (value base neg m (ndigits w2) e)).
    { intros e'. cbn [finish]. destruct un; [rewrite (O eq_refl)|]; reflexivity. }
    destruct X as [(-> & -> & -> & ->)|X]; [apply F|]. destruct X as [c sg d ds n x un C Sg Dd Un F5].
    rewrite (proj1 (letters_iff base c) C).
    assert (Y : match sg ++ d :: ds with 45 :: r' => (true, r') | 43 :: r' => (false, r') | _ => (false, sg ++ d :: ds) end = (beq sg [45], d :: ds)).
    { destruct Sg as [->|[->| ->]]; [|reflexivity|reflexivity]. cbn [app]. unfold dec_char in Dd. assert (d <> 45 /\ d <> 43) as [A1 A2] by lia.
      destruct d as [|a]; [reflexivity|]. do 6 (destruct a as [a|a|]; try reflexivity); contradiction. }
    rewrite Y. unfold dec_char in Dd. rewrite Dd.
    destruct (exp_run _ _ _ _ _ 0 Un ltac:(left; split; [lia|reflexivity])) as (x' & F5' & Ex). rewrite Ex. rewrite (first_five_fun _ _ _ F5 F5'). apply F.
Qed.

(** ** The same with underscores between digits *)
Definition opt (base : N) (w : bytes) (n : N) : Prop := w = [] /\ n = 0 \/ digits base w n.
Lemma digits_first base s n : digits base s n -> exists c r, s = c :: r /\ c <> 95 /\ c <> 46 /\ exists d, digit c d /\ d < base.
Proof.
  induction 1 as [c d D L|s n c d G (c0 & r & -> & IH) D L|s n c d G (c0 & r & -> & IH) D L].
  - exists c, []. split; [reflexivity|]. split; [unfold digit in D; lia|]. split; [unfold digit in D; lia|]. eauto.
  - exists c0, (r ++ [c]). split; [reflexivity|exact IH].
  - exists c0, (r ++ [95; c]). split; [reflexivity|exact IH].
Qed.
Lemma digits_nd base s n : digits base s n -> ndigits s <> 0%nat /\ s <> [].
Proof. intros D. destruct (digits_first _ _ _ D) as (c & r & -> & C & _). rewrite ndigits_cons, (proj2 (N.eqb_neq c 95) C). split; [lia|discriminate]. Qed.
Lemma pointed_iff base b m k : pointed base b m k <-> exists w1 pt w2 n1 n2, b = w1 ++ pt ++ w2 /\ opt base w1 n1 /\ opt base w2 n2 /\
  (pt = [46] \/ pt = [] /\ w2 = []) /\ (w1 <> [] \/ w2 <> []) /\ m = n1 * base ^ N.of_nat (ndigits w2) + n2 /\ k = ndigits w2.
Proof.
  split.
  - intros [w n D|w n D|f n D|w f n n2 D D2].
    + exists w, [], [], n, 0. rewrite app_nil_r. split; [reflexivity|]. split; [right; exact D|]. split; [left; auto|]. split; [auto|]. split; [left; exact (proj2 (digits_nd _ _ _ D))|].
      change (ndigits []) with 0%nat. cbn. split; [lia|reflexivity].
    + exists w, [46], [], n, 0. split; [reflexivity|]. split; [right; exact D|]. split; [left; auto|]. split; [auto|]. split; [left; exact (proj2 (digits_nd _ _ _ D))|].
      change (ndigits []) with 0%nat. cbn. split; [lia|reflexivity].
    + exists [], [46], f, 0, n. split; [reflexivity|]. split; [left; auto|]. split; [right; exact D|]. split; [auto|]. split; [right; exact (proj2 (digits_nd _ _ _ D))|].
      split; [lia|reflexivity].
    + exists w, [46], f, n, n2. split; [reflexivity|]. split; [right; exact D|]. split; [right; exact D2|]. split; [auto|]. split; [left; exact (proj2 (digits_nd _ _ _ D))|]. auto.
  - intros (w1 & pt & w2 & n1 & n2 & -> & O1 & O2 & P & Ne & -> & ->). destruct O1 as [[-> ->]|D1].
    + destruct O2 as [[-> ->]|D2]; [destruct Ne; contradiction|]. destruct P as [->|[-> ->]]; [|destruct Ne; contradiction].
      cbn [app]. replace (0 * base ^ N.of_nat (ndigits w2) + n2) with n2 by lia. exact (p_frac base w2 n2 D2).
    + destruct O2 as [[-> ->]|D2].
      * change (ndigits []) with 0%nat. replace (n1 * base ^ N.of_nat 0 + 0) with n1 by (cbn; lia). rewrite app_nil_r.
        destruct P as [->|[-> _]]; [exact (p_dot base w1 n1 D1)|rewrite app_nil_r; exact (p_whole base w1 n1 D1)].
      * destruct P as [->|[-> ->]]; [exact (p_both base w1 w2 n1 n2 D1 D2)|]. destruct (digits_nd _ _ _ D2) as [_ X]. contradiction.
Qed.
Lemma urun_other hex c r j k : under_digit hex c = false -> c <> 95 -> urun hex j (c :: r) = Some k -> j <> SUnder /\ urun hex SOther r = Some k.
Proof. intros D C. cbn [urun]. rewrite D, (proj2 (N.eqb_neq c 95) C). destruct j; try discriminate; intros H; (split; [discriminate|exact H]). Qed.
Lemma urun_other' hex c r j : under_digit hex c = false -> c <> 95 -> j <> SUnder -> urun hex j (c :: r) = urun hex SOther r.
Proof. intros D C J. cbn [urun]. rewrite D, (proj2 (N.eqb_neq c 95) C). destruct j; try reflexivity. contradiction. Qed.
Lemma letter_other base hex c : base = 10 /\ hex = false \/ base = 16 /\ hex = true -> In c (letters base) -> under_digit hex c = false /\ c <> 95.
Proof. intros [[-> ->]|[-> ->]] C; cbn in C; destruct C as [<-|[<-|[]]]; (split; [reflexivity|discriminate]). Qed.
Lemma under_ok hex i s : under_loop hex i s = true <-> exists j, urun hex i s = Some j /\ j <> SUnder.
Proof.
  rewrite under_urun. destruct (urun hex i s) as [[]|]; split; try discriminate; try (intros _; eexists; split; [reflexivity|discriminate]); try reflexivity.
  - intros (j & [= <-] & N). contradiction.
  - intros (j & X & _). discriminate.
Qed.
Lemma sign_other hex c : c = 43 \/ c = 45 \/ c = 46 -> under_digit hex c = false /\ c <> 95.
Proof. intros [->|[->| ->]]; (split; [destruct hex; reflexivity|discriminate]). Qed.
Section Under.
Variables (base : N) (hex : bool).
Hypothesis HB : base = 10 /\ hex = false \/ base = 16 /\ hex = true.
Let HB' : base <= 10 \/ base <= 16 /\ hex = true. Proof. destruct HB as [[-> ->]|[-> ->]]; [left; lia|right; split; [lia|reflexivity]]. Qed.
Let H10 : 10 <= 10 \/ 10 <= 16 /\ hex = true. Proof. left. lia. Qed.
Lemma digits_opt w n u u' i : i = SOther -> uint_loop base w n u = Some u' -> forall j, urun hex i w = Some j -> j <> SUnder -> exists n', uint_loop base w 0 false = Some n' /\ opt base w (fst n').
Proof.
  intros -> U j R J. destruct u' as [m un]. destruct (uint_shift _ _ _ _ _ _ U) as (n' & U' & _). destruct (uint_flag _ _ _ _ _ _ false U') as [w' U'']. exists (n', w'). split; [exact U''|]. cbn [fst].
  destruct w as [|c w]; [left; cbn [uint_loop] in U''; injection U'' as <- _; auto|]. right.
  apply (digits_iff base hex HB' (c :: w) n' SOther); [discriminate|left; discriminate|discriminate|]. split; [eauto|]. apply under_ok. eauto.
Qed.
Lemma expo_text u x e un j : expo base u x e un -> j <> SUnder -> (exists k, urun hex j x = Some k /\ k <> SUnder) -> exponent_text first_five (letters base) x e.
Proof.
  intros [c sg d ds n y un' C Sg Dd Un F5] J (k & R & K). destruct (letter_other base hex c HB C) as [C1 C2]. apply (urun_other _ _ _ _ _ C1 C2) in R. destruct R as [_ R].
  assert (R' : urun hex SOther (d :: ds) = Some k).
  { destruct Sg as [->|[->| ->]]; [exact R| |].
    - exact (proj2 (urun_other hex 43 _ _ _ (proj1 (sign_other hex 43 ltac:(auto))) ltac:(discriminate) R)).
    - exact (proj2 (urun_other hex 45 _ _ _ (proj1 (sign_other hex 45 ltac:(auto))) ltac:(discriminate) R)). }
  destruct (uint_flag _ _ _ _ _ _ false Un) as [w' U'].
  assert (D : digits 10 (d :: ds) n).
  { apply (digits_iff 10 hex H10 (d :: ds) n SOther); [discriminate|left; discriminate|discriminate|]. split; [eauto|]. apply under_ok. eauto. }
  assert (Sn : signed (sg ++ d :: ds) (d :: ds) (beq sg [45])) by (destruct Sg as [->|[->| ->]]; [exact (s_none _)|exact (s_plus _)|exact (s_minus _)]).
  exact (x_intro first_five (letters base) c (sg ++ d :: ds) (d :: ds) (beq sg [45]) n y C Sn D F5).
Qed.
Lemma text_expo x e u : exponent_text first_five (letters base) x e -> (exists un, expo base u x e un) /\ forall j, j <> SUnder -> urun hex j x = Some SDigit.
Proof.
  intros [c v ds neg n y C Sn D F5]. destruct (digits_run 10 hex H10 ds n D SOther ltac:(discriminate)) as [[w U] R].
  destruct (digits_first _ _ _ D) as (d & r & Ed & C95 & _ & dd & Dg & L). destruct (uint_flag _ _ _ _ _ _ u U) as [un U']. destruct (letter_other base hex c HB C) as [C1 C2].
  assert (Dd : dec_char d = true) by (unfold dec_char; unfold digit in Dg; lia). split.
  - exists un. destruct Sn as [t|t|t]; subst t.
    + exact (ex_ base u c [] d r n y un C (or_introl eq_refl) Dd U' F5).
    + exact (ex_ base u c [43] d r n y un C (or_intror (or_introl eq_refl)) Dd U' F5).
    + exact (ex_ base u c [45] d r n y un C (or_intror (or_intror eq_refl)) Dd U' F5).
  - intros j J. rewrite (urun_other' _ _ _ _ C1 C2 J). destruct Sn as [t|t|t]; [exact R| |].
    + change (bs "+" ++ t) with (43 :: t). rewrite (urun_other' hex 43 t SOther (proj1 (sign_other hex 43 ltac:(auto))) ltac:(discriminate) ltac:(discriminate)). exact R.
    + change (bs "-" ++ t) with (45 :: t). rewrite (urun_other' hex 45 t SOther (proj1 (sign_other hex 45 ltac:(auto))) ltac:(discriminate) ltac:(discriminate)). exact R.
Qed.
End Under.

(** A text with a shape and its underscores in place is a number, and the other way round.
    [i]: a prefix has been read or not. *)
Section Number.
Variables (base : N) (hex : bool).
Hypothesis HB : base = 10 /\ hex = false \/ base = 16 /\ hex = true.
Let HB' : base <= 10 \/ base <= 16 /\ hex = true. Proof. destruct HB as [[-> ->]|[-> ->]]; [left; lia|right; split; [lia|reflexivity]]. Qed.
Lemma no_under_ok t m k e i : i <> SUnder -> shape base t m k e false -> under_loop hex i t = true.
Proof.
  intros Hi Sh. remember false as un eqn:Eun. destruct Sh as [w1 pt w2 n1 u1 m u2 x e un U1 U2 P N0 X]. subst un.
  assert (u2 = false) as ->.
  { destruct X as [(_ & _ & <- & _)|X]; [reflexivity|]. remember false as un eqn:Eun. destruct X as [c sg d ds n y un C Sg Dd Un F5]. subst un. destruct u2; [|reflexivity]. apply uint_true in Un. discriminate. }
  assert (u1 = false) as -> by (destruct u1; [apply uint_true in U2; discriminate|reflexivity]).
  pose proof (plain_run base hex HB' w1 _ _ i U1) as R1. apply under_ok. rewrite urun_app, R1.
  assert (J1 : match w1 with [] => i | _ => SDigit end <> SUnder) by (destruct w1; [exact Hi|discriminate]).
  replace (match w1 with [] => Some i | _ :: _ => Some SDigit end) with (Some (match w1 with [] => i | _ => SDigit end)) by (destruct w1; reflexivity).
  set (j1 := match w1 with [] => i | _ => SDigit end) in *. clearbody j1. clear R1 U1.
  assert (R2 : exists j2, j2 <> SUnder /\ urun hex j1 (pt ++ w2 ++ x) = urun hex j2 x).
  { destruct P as [->|[-> ->]]; [|exists j1; auto]. cbn [app]. rewrite (urun_other' hex 46 _ j1 (proj1 (sign_other hex 46 ltac:(auto))) ltac:(discriminate) J1).
    rewrite urun_app, (plain_run base hex HB' w2 _ _ SOther U2). destruct w2; eexists; (split; [|reflexivity]); discriminate. }
  destruct R2 as (j2 & J2 & ->). destruct X as [(-> & _)|X]; [exists j2; auto|].
  inversion X as [c sg d ds n y un C Sg Dd Un F5 E1 E2 E3]. subst x e un. exists SDigit. split; [|discriminate].
  destruct (letter_other base hex c HB C) as [C1 C2]. rewrite (urun_other' _ _ _ _ C1 C2 J2).
  assert (R3 : urun hex SOther (d :: ds) = Some SDigit) by exact (plain_run 10 hex ltac:(left; lia) (d :: ds) _ _ SOther Un).
  destruct Sg as [->|[->| ->]]; [exact R3| |].
  - cbn [app]. rewrite (urun_other' hex 43 _ SOther (proj1 (sign_other hex 43 ltac:(auto))) ltac:(discriminate) ltac:(discriminate)). exact R3.
  - cbn [app]. rewrite (urun_other' hex 45 _ SOther (proj1 (sign_other hex 45 ltac:(auto))) ltac:(discriminate) ltac:(discriminate)). exact R3.
Qed.
Lemma shape_parts t m k e un i : i = SOther \/ i = SDigit -> shape base t m k e un -> under_loop hex i t = true ->
  exists u b x, t = u ++ b ++ x /\ (u = [] \/ u = bs "_" /\ hd 0 b <> 46 /\ i = SDigit) /\ pointed base b m k /\
    (x = [] /\ e = 0%Z /\ base = 10 \/ exponent_text first_five (letters base) x e).
Proof.
  intros Hi Sh O. destruct Sh as [w1 pt w2 n1 u1 m u2 x e un U1 U2 P N0 X]. apply under_ok in O. destruct O as (j & R & J). rewrite urun_app in R.
  destruct (urun hex i w1) as [j1|] eqn:R1; [|discriminate].
  (* behind the first digits *)
  assert (Y : j1 <> SUnder /\ exists j2, urun hex (match pt with [] => j1 | _ => SOther end) w2 = Some j2 /\ j2 <> SUnder /\ urun hex j2 x = Some j).
  { assert (Z : forall j2, urun hex j2 x = Some j -> j2 <> SUnder).
    { intros j2 Rx. destruct X as [(-> & _)|X]; [cbn [urun] in Rx; injection Rx as ->; exact J|]. destruct X as [c sg d ds n y un C Sg Dd Un F5].
      destruct (letter_other base hex c HB C) as [C1 C2]. exact (proj1 (urun_other _ _ _ _ _ C1 C2 Rx)). }
    destruct P as [->|[-> ->]].
    - cbn [app] in R. apply (urun_other hex 46 _ _ _ (proj1 (sign_other hex 46 ltac:(auto))) ltac:(discriminate)) in R. destruct R as [J1 R]. split; [exact J1|].
      rewrite urun_app in R. destruct (urun hex SOther w2) as [j2|]; [|discriminate]. exists j2. split; [reflexivity|]. split; [exact (Z _ R)|exact R].
    - cbn [app urun] in *. split; [exact (Z _ R)|]. exists j1. split; [reflexivity|]. split; [exact (Z _ R)|exact R]. }
  destruct Y as (J1 & j2 & R2 & J2 & Rx).
  assert (O2 : exists n2, opt base w2 n2 /\ m = n1 * base ^ N.of_nat (ndigits w2) + n2).
  { destruct (uint_shift _ _ _ _ _ _ U2) as (n2 & U2' & Em). destruct P as [->|[-> ->]].
    - destruct (digits_opt base hex HB w2 n1 u1 (m, u2) SOther eq_refl U2 j2 R2 J2) as ([n2' un2] & U2'' & O2). cbn [fst] in O2. destruct (uint_flag _ _ _ _ _ _ false U2') as [w' U3]. rewrite U3 in U2''. injection U2'' as -> _. eauto.
    - exists n2. split; [|exact Em]. left. split; [reflexivity|]. cbn [uint_loop] in U2'. injection U2' as <- _. reflexivity. }
  destruct O2 as (n2 & O2 & Em).
  assert (O1 : exists u w1', w1 = u ++ w1' /\ (u = [] \/ u = bs "_" /\ w1' <> [] /\ i = SDigit) /\ opt base w1' n1).
  { destruct w1 as [|c w1]; [exists [], []; split; [reflexivity|]; split; [auto|]; left; cbn [uint_loop] in U1; injection U1 as <- _; auto|].
    assert (O : under_loop hex i (c :: w1) = true) by (apply under_ok; eauto).
    destruct Hi as [->| ->].
    - exists [], (c :: w1). split; [reflexivity|]. split; [auto|]. right. apply (digits_iff base hex HB' (c :: w1) n1 SOther); [discriminate|left; discriminate|discriminate|]. split; [eauto|exact O].
    - destruct (proj1 (prefix_iff base hex HB' (c :: w1) n1 ltac:(discriminate)) (conj (ex_intro _ u1 U1) O)) as (u & t & U & -> & D).
      exists u, t. split; [reflexivity|]. split; [|right; exact D]. destruct U as [->| ->]; [left; reflexivity|]. right. split; [reflexivity|]. split; [exact (proj2 (digits_nd _ _ _ D))|reflexivity]. }
  destruct O1 as (u & w1' & -> & Hu & O1).
  exists u, (w1' ++ pt ++ w2), x. split; [rewrite !app_assoc; reflexivity|]. split; [|split].
  - destruct Hu as [->|(-> & Nw & Ei)]; [left; reflexivity|]. right. split; [reflexivity|]. split; [|exact Ei]. destruct O1 as [[-> _]|D]; [contradiction|].
    destruct (digits_first _ _ _ D) as (c & r & -> & _ & C46 & _). exact C46.
  - apply pointed_iff. exists w1', pt, w2, n1, n2. split; [reflexivity|]. split; [exact O1|]. split; [exact O2|]. split; [exact P|]. split; [|auto].
    destruct w1' as [|a w1']; [|left; discriminate]. destruct Hu as [->|(_ & Nw & _)]; [|contradiction]. destruct w2 as [|b w2]; [|right; discriminate]. exfalso. apply N0. reflexivity.
  - destruct X as [(-> & -> & _ & ->)|X]; [left; auto|]. right. exact (expo_text base hex HB _ _ _ _ j2 X J2 (ex_intro _ j (conj Rx J))).
Qed.
Lemma parts_shape u b x m k e i : i <> SUnder -> (u = [] \/ u = bs "_" /\ hd 0 b <> 46 /\ i = SDigit) -> pointed base b m k ->
  (x = [] /\ e = 0%Z /\ base = 10 \/ exponent_text first_five (letters base) x e) ->
  (exists un, shape base (u ++ b ++ x) m k e un) /\ under_loop hex i (u ++ b ++ x) = true.
Proof.
  intros Hi Hu Pt X. apply pointed_iff in Pt. destruct Pt as (w1 & pt & w2 & n1 & n2 & -> & O1 & O2 & P & Ne & -> & ->).
  assert (OU : forall w n, opt base w n -> exists v, uint_loop base w 0 false = Some (n, v)).
  { intros w n [[-> ->]|D]; [exists false; reflexivity|]. exact (proj1 (digits_run base hex HB' w n D SOther ltac:(discriminate))). }
  assert (OR : forall w n j, opt base w n -> j <> SUnder -> exists j', urun hex j w = Some j' /\ j' <> SUnder).
  { intros w n j [[-> ->]|D] Hj; [exists j; auto|]. exists SDigit. split; [|discriminate]. exact (proj2 (digits_run base hex HB' w n D j Hj)). }
  assert (ND : forall w n, opt base w n -> w <> [] -> ndigits w <> 0%nat).
  { intros w n [[-> _]|D] Nw; [contradiction|exact (proj1 (digits_nd _ _ _ D))]. }
  split.
  - destruct (OU _ _ O1) as [v1 U1]. destruct (OU _ _ O2) as [v2 U2].
    assert (U1' : exists v, uint_loop base (u ++ w1) 0 false = Some (n1, v)).
    { destruct Hu as [->|(-> & _)]; [eauto|]. change (bs "_" ++ w1) with (95 :: w1). change (uint_loop base (95 :: w1) 0 false) with (uint_loop base w1 0 true). exact (uint_flag _ _ _ _ _ _ true U1). }
    destruct U1' as [v1' U1']. destruct (uint_flag _ _ _ _ _ _ v1' U2) as [v2' U2']. apply (uint_shift' base w2 n1) in U2'.
    assert (Nd : (ndigits (u ++ w1) + ndigits w2 <> 0)%nat). { rewrite ndigits_app. destruct Ne as [Ne|Ne]; [pose proof (ND _ _ O1 Ne)|pose proof (ND _ _ O2 Ne)]; lia. }
    replace (u ++ (w1 ++ pt ++ w2) ++ x) with ((u ++ w1) ++ pt ++ w2 ++ x) by (rewrite <- !app_assoc; reflexivity).
    destruct X as [(-> & -> & Eb)|X].
    + exists v2'. apply (sh_ base (u ++ w1) pt w2 n1 v1' _ v2' [] 0%Z v2' U1' U2' P Nd). left. auto.
    + destruct (proj1 (text_expo base hex HB x e v2' X)) as [un Ex]. exists un. exact (sh_ base (u ++ w1) pt w2 n1 v1' _ v2' x e un U1' U2' P Nd (or_intror Ex)).
  - apply under_ok. assert (Ru : exists j, urun hex i (u ++ w1) = Some j /\ j <> SUnder).
    { destruct Hu as [->|(-> & Hd & ->)]; [exact (OR _ _ _ O1 Hi)|]. destruct O1 as [[-> _]|D].
      - exfalso. cbn [app] in Hd. destruct P as [->|[-> ->]]; [apply Hd; reflexivity|]. destruct Ne; contradiction.
      - destruct (digits_first _ _ _ D) as (c & r & -> & _ & _ & d & Dg & L). exists SDigit. split; [|discriminate].
        destruct (digits_run base hex HB' _ _ D SDigit ltac:(discriminate)) as [_ R]. change (bs "_" ++ c :: r) with (95 :: c :: r). cbn [urun] in *.
        rewrite under_digit_95. change (95 =? 95) with true. cbv iota. rewrite (under_digit_of base hex c d HB' Dg L) in *. exact R. }
    destruct Ru as (j1 & R1 & J1). replace (u ++ (w1 ++ pt ++ w2) ++ x) with ((u ++ w1) ++ pt ++ w2 ++ x) by (rewrite <- !app_assoc; reflexivity). rewrite urun_app, R1.
    assert (R2 : exists j2, j2 <> SUnder /\ urun hex j1 (pt ++ w2 ++ x) = urun hex j2 x).
    { destruct P as [->|[-> ->]]; [|exists j1; auto]. cbn [app]. rewrite (urun_other' hex 46 _ j1 (proj1 (sign_other hex 46 ltac:(auto))) ltac:(discriminate) J1).
      rewrite urun_app. destruct (OR _ _ SOther O2 ltac:(discriminate)) as (j2 & -> & J2). eauto. }
    destruct R2 as (j2 & J2 & ->). destruct X as [(-> & _)|X]; [exists j2; auto|]. exists SDigit. split; [|discriminate]. exact (proj2 (text_expo base hex HB x e false X) j2 J2).
Qed.
End Number.

(** ** All numbers *)
Definition okc (c : N) : Prop := (lower c =? 98) || (lower c =? 111) || (lower c =? 120) = false.
Lemma okc_digit c : 48 <= c <= 57 \/ c = 95 -> okc c.
Proof.
  unfold okc. intros [H| ->]; [|reflexivity].
  pose proof (below_128 (fun c => negb ((48 <=? c) && (c <=? 57)) || negb ((lower c =? 98) || (lower c =? 111) || (lower c =? 120))) eq_refl c ltac:(lia)) as B. cbv beta in B.
  replace ((48 <=? c) && (c <=? 57)) with true in B by lia. cbn [negb orb] in B. apply negb_true_iff in B. exact B.
Qed.
Lemma shape_chars t m k e un : shape 10 t m k e un -> Forall okc t.
Proof.
  intros [w1 pt w2 n1 u1 m' u2 x e' un' U1 U2 P N0 X].
  assert (D : forall s n u n' u', uint_loop 10 s n u = Some (n', u') -> Forall okc s) by (intros s n u n' u' U; exact (Forall_impl _ okc_digit (uint_chars _ _ _ _ _ U))).
  apply Forall_app. split; [exact (D _ _ _ _ _ U1)|]. apply Forall_app. split; [destruct P as [->|[-> _]]; [constructor; [reflexivity|constructor]|constructor]|].
  apply Forall_app. split; [exact (D _ _ _ _ _ U2)|]. destruct X as [(-> & _)|X]; [constructor|]. destruct X as [c sg d ds n y un'' C Sg Dd Un F5].
  constructor; [cbn in C; destruct C as [<-|[<-|[]]]; reflexivity|]. apply Forall_app. split; [destruct Sg as [->|[->| ->]]; [constructor|constructor; [reflexivity|constructor]|constructor; [reflexivity|constructor]]|].
  exact (D _ _ _ _ _ Un).
Qed.
Definition neg_of (s : bytes) : bool := match s with 45 :: _ => true | _ => false end.
Lemma signed_drop s : signed s (drop_sign s) (neg_of s).
Proof.
  destruct s as [|c s]; [exact (s_none [])|]. cbn [drop_sign]. destruct (N.eqb_spec c 43) as [->|H1]; [exact (s_plus s)|]. destruct (N.eqb_spec c 45) as [->|H2]; [exact (s_minus s)|].
  cbn [orb]. replace (neg_of (c :: s)) with false; [exact (s_none (c :: s))|]. unfold neg_of. destruct c as [|c]; [reflexivity|]. do 6 (destruct c as [c|c|]; try reflexivity); contradiction.
Qed.
Lemma drop_signed s t neg : signed s t neg -> hd 0 t <> 43 -> hd 0 t <> 45 -> drop_sign s = t /\ neg_of s = neg.
Proof.
  intros [t'|t'|t'] H1 H2; [|split; reflexivity|split; reflexivity]. destruct t' as [|c t']; [split; reflexivity|]. cbn [hd] in *. cbn [drop_sign].
  rewrite (proj2 (N.eqb_neq c 43) H1), (proj2 (N.eqb_neq c 45) H2). split; [reflexivity|]. unfold neg_of. destruct c as [|c]; [reflexivity|]. do 6 (destruct c as [c|c|]; try reflexivity); contradiction.
Qed.
Lemma prefix_plain t : Forall okc t -> prefix t = (10, t).
Proof.
  intros F. destruct t as [|a t]; [reflexivity|]. destruct (N.eq_dec a 48) as [->|Ha].
  - destruct t as [|c t]; [reflexivity|]. destruct t as [|c' t]; [reflexivity|]. cbn [prefix]. pose proof (Forall_inv (Forall_inv_tail F)) as C. unfold okc in C. rewrite !orb_false_iff in C. destruct C as [_ ->]. reflexivity.
  - unfold prefix. destruct a as [|a]; [reflexivity|]. do 6 (destruct a as [a|a|]; try reflexivity); contradiction.
Qed.
Lemma under_plain s : Forall okc (drop_sign s) -> underscore_ok s = under_loop false SOther (drop_sign s).
Proof.
  unfold underscore_ok. generalize (drop_sign s). intros t F. destruct t as [|a t]; [reflexivity|]. destruct (N.eq_dec a 48) as [->|Ha].
  - destruct t as [|c t]; [reflexivity|]. pose proof (Forall_inv (Forall_inv_tail F)) as C. unfold okc in C. rewrite C. reflexivity.
  - destruct a as [|a]; [reflexivity|]. do 6 (destruct a as [a|a|]; try reflexivity); contradiction.
Qed.
Lemma value_eq base neg m k e : (value base neg m k e == (if neg : bool then -1 else 1) * inject_Z (Z.of_N m) * inject_Z (Z.of_N base) ^ (- Z.of_nat k) * inject_Z (if base =? 16 then 2 else 10) ^ e)%Q.
Proof. unfold value, pow_q. destruct neg; ring. Qed.
Lemma prefix_cases t : (exists p c r, t = 48 :: p :: c :: r /\ lower p = 120 /\ prefix t = (16, c :: r)) \/ prefix t = (10, t).
Proof.
  destruct t as [|a t]; [right; reflexivity|]. destruct (N.eq_dec a 48) as [->|Ha].
  - destruct t as [|p t]; [right; reflexivity|]. destruct t as [|c r]; [right; reflexivity|]. cbn [prefix]. destruct (N.eqb_spec (lower p) 120) as [E|E]; [left; exists p, c, r; auto|right; reflexivity].
  - right. unfold prefix. destruct a as [|a]; [reflexivity|]. do 6 (destruct a as [a|a|]; try reflexivity); contradiction.
Qed.
Lemma read_sound s q : read_float s = Some q -> exists q', number first_five s q' /\ (q == q')%Q.
Proof.
  rewrite read_float_body. fold (neg_of s). pose proof (signed_drop s) as Sg. destruct (prefix_cases (drop_sign s)) as [(p & c & r & Et & Lp & ->)| ->]; cbn [fst snd]; intros H.
  - rewrite Et in Sg. apply (body_shape 16 s _ _ _ ltac:(auto)) in H. destruct H as (m & k & e & un & Sh & O & ->).
    assert (U : under_loop true SDigit (c :: r) = true).
    { destruct un; [|exact (no_under_ok 16 true ltac:(auto) _ _ _ _ SDigit ltac:(discriminate) Sh)]. specialize (O eq_refl). unfold underscore_ok in O. rewrite Et in O. rewrite Lp in O. exact O. }
    destruct (shape_parts 16 true ltac:(auto) _ _ _ _ _ SDigit ltac:(auto) Sh U) as (u & b & x & E & Hu & Pt & X).
    destruct X as [(_ & _ & X)|X]; [discriminate|]. eexists. split; [|apply value_eq]. rewrite E in Sg.
    refine (num_hex first_five s (neg_of s) p u b x m k e Sg _ _ Pt X).
    + destruct (lower_letter p ltac:(lia)) as [[R E1]|[R E1]]; rewrite E1 in Lp; cbn; lia.
    + destruct Hu as [->|(-> & Hd & _)]; [left; reflexivity|right; auto].
  - apply (body_shape 10 s _ _ _ ltac:(auto)) in H. destruct H as (m & k & e & un & Sh & O & ->).
    assert (U : under_loop false SOther (drop_sign s) = true).
    { destruct un; [|exact (no_under_ok 10 false ltac:(auto) _ _ _ _ SOther ltac:(discriminate) Sh)]. rewrite <- (under_plain s (shape_chars _ _ _ _ _ Sh)). exact (O eq_refl). }
    destruct (shape_parts 10 false ltac:(auto) _ _ _ _ _ SOther ltac:(auto) Sh U) as (u & b & x & E & Hu & Pt & X).
    destruct Hu as [->|(_ & _ & Hu)]; [|discriminate]. cbn [app] in E. rewrite E in Sg. eexists. split; [|apply value_eq].
    refine (num_decimal first_five s (neg_of s) b x m k e Sg Pt _). destruct X as [(-> & -> & _)|X]; [left; auto|right; exact X].
Qed.
Lemma pointed_head base b m k x : pointed base b m k -> hd 0 (b ++ x) <> 43 /\ hd 0 (b ++ x) <> 45 /\ hd 0 (b ++ x) <> 105 /\ (base <= 10 -> hd 0 (b ++ x) <> 73 /\ hd 0 (b ++ x) <> 78 /\ hd 0 (b ++ x) <> 110) /\ b <> [].
Proof.
  assert (D : forall w n y, digits base w n -> hd 0 (w ++ y) <> 43 /\ hd 0 (w ++ y) <> 45 /\ hd 0 (w ++ y) <> 105 /\ (base <= 10 -> hd 0 (w ++ y) <> 73 /\ hd 0 (w ++ y) <> 78 /\ hd 0 (w ++ y) <> 110) /\ w <> []).
  { intros w n y Dw. destruct (digits_first _ _ _ Dw) as (c & r & -> & _ & _ & d & Dg & L). cbn [app hd]. unfold digit in Dg. repeat split; try lia. discriminate. }
  intros [w n Dw|w n Dw|f n Df|w f n n2 Dw Df].
  - exact (D _ _ _ Dw).
  - rewrite <- app_assoc. destruct (D _ _ (bs "." ++ x) Dw) as (A & B & C & E & F). repeat split; auto; try (intros; apply E; assumption). destruct w; [contradiction|discriminate].
  - cbn. repeat split; discriminate.
  - rewrite <- app_assoc. destruct (D _ _ ((bs "." ++ f) ++ x) Dw) as (A & B & C & E & F). repeat split; auto; try (intros; apply E; assumption). destruct w; [contradiction|discriminate].
Qed.
Lemma read_complete s q : number first_five s q -> exists q', read_float s = Some q' /\ (q == q')%Q.
Proof.
  intros [s' neg b x m k e Sg Pt X|s' neg p u b x m k e Sg Hp Hu Pt X].
  - destruct (pointed_head _ _ _ _ x Pt) as (H1 & H2 & _). destruct (drop_signed _ _ _ Sg H1 H2) as [Ed En].
    destruct (parts_shape 10 false ltac:(auto) [] b x m k e SOther ltac:(discriminate) ltac:(auto) Pt ltac:(destruct X as [[-> ->]|X]; [left; auto|right; exact X])) as [[un Sh] U]. cbn [app] in Sh, U.
    pose proof (shape_chars _ _ _ _ _ Sh) as F. exists (value 10 neg m k e). split; [|symmetry; apply value_eq].
    rewrite read_float_body. fold (neg_of s'). rewrite Ed, En, (prefix_plain _ F). cbn [fst snd]. apply (body_shape 10 s' neg _ _ ltac:(auto)). exists m, k, e, un. split; [exact Sh|]. split; [|reflexivity].
    intros _. rewrite under_plain by (rewrite Ed; exact F). rewrite Ed. exact U.
  - destruct (drop_signed _ _ _ Sg) as [Ed En]; [discriminate|discriminate|].
    destruct (parts_shape 16 true ltac:(auto) u b x m k e SDigit ltac:(discriminate) ltac:(destruct Hu as [->|[-> Hd]]; [left; reflexivity|right; auto]) Pt (or_intror X)) as [[un Sh] U].
    assert (Lp : lower p = 120) by (cbn in Hp; destruct Hp as [<-|[<-|[]]]; reflexivity).
    assert (Ne : exists c r, u ++ b ++ x = c :: r).
    { pose proof (proj2 (proj2 (proj2 (proj2 (pointed_head _ _ _ _ x Pt))))) as Nb. destruct (u ++ b ++ x) as [|c r] eqn:E; [|eauto]. exfalso. apply Nb. apply app_eq_nil in E. destruct E as [_ E]. apply app_eq_nil in E. exact (proj1 E). }
    destruct Ne as (c & r & Ne). exists (value 16 neg m k e). split; [|symmetry; apply value_eq].
    rewrite read_float_body. fold (neg_of s'). rewrite Ed, En. rewrite Ne in *. cbn [prefix]. rewrite Lp. change (120 =? 120) with true. cbv iota. cbn [fst snd].
    apply (body_shape 16 s' neg _ _ ltac:(auto)). exists m, k, e, un. split; [exact Sh|]. split; [|reflexivity].
    intros _. unfold underscore_ok. rewrite Ed, Lp. exact U.
Qed.
