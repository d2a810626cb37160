(** The texts of numbers that inspect writes. *)
From Coq Require Import String QArith Qround Qabs Qpower Lqa Lia ZArith.
From Verif Require Import Model.Base Model.Float Model.Json Model.Inspect Proof.Tactics Proof.FloatP Proof.RoundP Proof.JsonP Proof.OutputP Proof.Utf8P Proof.InspectP.
From Verif Require Import Spec.Str Spec.Double Spec.Cmdline Spec.Printed Spec.Inspected.
Local Open Scope N_scope.
Local Open Scope list_scope.

(** * Digits *)
Lemma dec_app a : forall b n, Cmdline.decimal (a ++ b) n = match Cmdline.decimal a n with Some x => Cmdline.decimal b x | None => None end.
Proof. induction a as [|c a IH]; intros b n; cbn [Cmdline.decimal app]; [reflexivity|]. destruct (_ && _); auto. Qed.
Lemma dec_undigits s : forall n, Cmdline.decimal s n = undigits n s.
Proof. induction s as [|c s IH]; intros n; cbn [Cmdline.decimal undigits]; [reflexivity|]. rewrite IH. reflexivity. Qed.
Lemma dec_zeros k : forall n, Cmdline.decimal (repeat 48 k) n = Some (n * 10 ^ N.of_nat k).
Proof.
  induction k as [|k IH]; intros n; cbn [Cmdline.decimal repeat]; [f_equal; cbn; lia|]. change ((48 <=? 48) && (48 <=? 57)) with true. cbv iota.
  rewrite IH. f_equal. replace (N.of_nat (S k)) with (N.succ (N.of_nat k)) by lia. rewrite N.pow_succ_r'. lia.
Qed.

(** * JSON numbers *)
Definition no_digit (s : bytes) : Prop := match s with [] => True | c :: _ => is_dig c = false end.
Lemma take_digits_stop ds : forall rest, forallb is_dig ds = true -> no_digit rest -> take_digits (ds ++ rest) = (ds, rest).
Proof.
  induction ds as [|d ds IH]; intros rest F St; cbn [app take_digits forallb] in *.
  - destruct rest as [|c r]; [reflexivity|]. cbn [take_digits]. cbn in St. rewrite St. reflexivity.
  - apply andb_true_iff in F. destruct F as [-> F]. rewrite IH by assumption. reflexivity.
Qed.
Definition int_part (s : bytes) : Prop := forallb is_dig s = true /\ (s = [48] \/ exists d t, s = d :: t /\ d <> 48).
Definition frac_part (s : bytes) : Prop := s = [] \/ exists ds, s = 46 :: ds /\ forallb is_dig ds = true /\ ds <> [].
Definition exp_part (s : bytes) : Prop := s = [] \/ exists sg ds, s = 101 :: sg :: ds /\ (sg = 43 \/ sg = 45) /\ forallb is_dig ds = true /\ ds <> [].
Lemma stops_no_digit rest : stops rest = true -> no_digit rest.
Proof. destruct rest as [|c r]; [reflexivity|]. cbn. destruct (is_dig c); [discriminate|reflexivity]. Qed.
Lemma exp_no_digit ex rest : exp_part ex -> stops rest = true -> no_digit (ex ++ rest).
Proof. intros [-> | (sg & ds & -> & _)] St; [exact (stops_no_digit _ St)|reflexivity]. Qed.
Lemma scan_exp_part ex rest : exp_part ex -> stops rest = true -> scan_exp (ex ++ rest) = Some (ex, rest).
Proof.
  intros [-> | (sg & ds & -> & Sg & F & Ne)] St; [exact (proj2 (scan_tail rest St))|].
  cbn [app]. unfold scan_exp. change ((101 =? 101) || (101 =? 69)) with true. cbv iota.
  replace ((sg =? 43) || (sg =? 45)) with true by (destruct Sg as [-> | ->]; reflexivity).
  rewrite (take_digits_stop ds rest F (stops_no_digit _ St)). destruct ds; [congruence|reflexivity].
Qed.
Lemma scan_frac_part fr ex rest : frac_part fr -> exp_part ex -> stops rest = true -> scan_frac (fr ++ ex ++ rest) = Some (fr, ex ++ rest).
Proof.
  intros [-> | (ds & -> & F & Ne)] Ex St.
  - cbn [app]. destruct Ex as [-> | (sg & ds & -> & _)]; [exact (proj1 (scan_tail rest St))|reflexivity].
  - cbn [app scan_frac]. rewrite (take_digits_stop ds _ F (exp_no_digit _ _ Ex St)). destruct ds; [congruence|reflexivity].
Qed.
Lemma scan_number_parts ip fr ex rest : int_part ip -> frac_part fr -> exp_part ex -> stops rest = true ->
  scan_number (ip ++ fr ++ ex ++ rest) = Some (ip ++ fr ++ ex, rest).
Proof.
  intros [Fi Ci] Fr Ex St. unfold scan_number.
  assert (E45 : (match ip ++ fr ++ ex ++ rest with 45 :: r => ([45], r) | _ => ([], ip ++ fr ++ ex ++ rest) end) = ([], ip ++ fr ++ ex ++ rest)).
  { destruct ip as [|d t]; [destruct Ci as [C | (d & t & C & _)]; discriminate|]. cbn [forallb] in Fi. apply andb_true_iff in Fi. destruct Fi as [Dd _].
    cbn [app]. unfold is_dig in Dd. apply in_range_elim in Dd. destruct d as [|p]; [reflexivity|]. do 6 (destruct p as [p|p|]; try reflexivity). lia. }
  rewrite E45. clear E45. pose proof (scan_frac_part fr ex rest Fr Ex St) as Sf. pose proof (scan_exp_part ex rest Ex St) as Se.
  destruct Ci as [-> | (d & t & -> & Nz)].
  - cbn [app]. rewrite Sf, Se. reflexivity.
  - assert (Nd : no_digit (fr ++ ex ++ rest)).
    { destruct Fr as [-> | (ds & -> & _)]; [exact (exp_no_digit _ _ Ex St)|reflexivity]. }
    rewrite (take_digits_stop (d :: t) _ Fi Nd). cbn [app].
    assert (E : forall (X Y : option (bytes * bytes)), match d :: t ++ fr ++ ex ++ rest with 48 :: _ => X | _ => Y end = Y).
    { intros X Y. destruct d as [|p]; [reflexivity|]. do 6 (destruct p as [p|p|]; try reflexivity). congruence. }
    rewrite E, Sf, Se. reflexivity.
Qed.
Lemma parts_read ip fr ex : int_part ip -> frac_part fr -> exp_part ex -> JsonP.reads_as (ip ++ fr ++ ex) (JNum (ip ++ fr ++ ex)).
Proof.
  intros Ip Fr Ex. assert (Hd : exists d t, ip = d :: t /\ 48 <= d <= 57).
  { destruct Ip as [Fi Ci]. destruct ip as [|d t]; [destruct Ci as [C | (d & t & C & _)]; discriminate|]. exists d, t. split; [reflexivity|].
    cbn [forallb] in Fi. apply andb_true_iff in Fi. destruct Fi as [Dd _]. unfold is_dig in Dd. apply in_range_elim in Dd. lia. }
  destruct Hd as (d & t & E & Hd). split.
  - exists d, (t ++ fr ++ ex). rewrite E. split; [reflexivity|]. unfold is_space. rewrite !orb_false_iff, !N.eqb_neq. lia.
  - intros fuel rest L St. pose proof (scan_number_parts ip fr ex rest Ip Fr Ex St) as X. rewrite <- !app_assoc. rewrite E in *. cbn [app List.length] in L. destruct fuel as [|fuel]; [lia|].
    cbn [app scan_value] in *. destruct (N.eqb_spec d 123); [lia|]. destruct (N.eqb_spec d 91); [lia|]. destruct (N.eqb_spec d 34); [lia|].
    destruct (N.eqb_spec d 116); [lia|]. destruct (N.eqb_spec d 102); [lia|]. destruct (N.eqb_spec d 110); [lia|].
    rewrite X. reflexivity.
Qed.

Lemma digits_int fuel n : (0 < fuel)%nat -> n < 10 ^ N.of_nat fuel -> int_part (Json.digits fuel n).
Proof. intros P L. destruct (digits_spec fuel n P L) as (A & _ & C). split; [exact A|]. destruct C as [C | (d & t & C & D & _)]; eauto. Qed.
Lemma u64_reads n : n < 2 ^ 64 -> JsonP.reads_as (print_u64 n) (JNum (print_u64 n)) /\ numeral Printed.decimal (print_u64 n) n.
Proof.
  intros L. assert (L' : n < 10 ^ N.of_nat 20) by (eapply N.lt_trans; [exact L|reflexivity]). split; [|apply digits_numeral; [exact L'|lia]].
  pose proof (parts_read (print_u64 n) [] [] (digits_int 20 n ltac:(lia) L') (or_introl eq_refl) (or_introl eq_refl)) as X. rewrite !app_nil_r in X. exact X.
Qed.

(** * The two formats *)
Section Format.
  Variables (ds : bytes) (D : N) (e : Z).
  Hypothesis Fd : forallb is_dig ds = true.
  Hypothesis Ud : undigits 0 ds = Some D.
  Hypothesis Nz : exists d t, ds = d :: t /\ d <> 48.
  Let nd := List.length ds.
  Definition good (t : bytes) : Prop :=
    JsonP.reads_as t (JNum t) /\ exists q, real t q /\ (q == inject_Z (Z.of_N D) * inject_Z 10 ^ e)%Q.
  Lemma ds_ne : ds <> [].
  Proof. destruct Nz as (d & t & -> & _). discriminate. Qed.
  Lemma forallb_firstn n : forallb is_dig (firstn n ds) = true.
  Proof. apply forallb_forall. intros c I. apply (proj1 (forallb_forall _ _) Fd). rewrite <- (firstn_skipn n ds). apply in_or_app. left. exact I. Qed.
  Lemma forallb_skipn n : forallb is_dig (skipn n ds) = true.
  Proof. apply forallb_forall. intros c I. apply (proj1 (forallb_forall _ _) Fd). rewrite <- (firstn_skipn n ds). apply in_or_app. right. exact I. Qed.
  Lemma int_first n : (0 < n)%nat -> int_part (firstn n ds).
  Proof.
    intros P. split; [apply forallb_firstn|]. right. destruct Nz as (d & t & E & N). rewrite E. destruct n as [|n]; [lia|]. cbn [firstn]. eauto.
  Qed.
  Lemma zeros_dig k : forallb is_dig (repeat 48 k) = true.
  Proof. induction k; [reflexivity|exact IHk]. Qed.
  Lemma format_f_good : good (format_f ds e).
  Proof.
    unfold format_f. fold nd. destruct (Z.leb_spec 0 e) as [He|He].
    - split.
      + pose proof (parts_read (ds ++ repeat 48 (Z.to_nat e)) [] []) as X. rewrite !app_nil_r in X. apply X; [|left; reflexivity|left; reflexivity].
        split; [rewrite forallb_app, Fd; apply zeros_dig|]. right. destruct Nz as (d & t & -> & N). cbn [app]. eauto.
      + eexists. split.
        * eapply (r_intro _ _ false (ds ++ repeat 48 (Z.to_nat e)) [] [] [] _ 0%Z); [apply s_none|rewrite !app_nil_r; reflexivity|right; auto| | |left; auto].
          -- rewrite app_nil_r. pose proof ds_ne. destruct ds; [congruence|discriminate].
          -- rewrite app_nil_r, dec_app, dec_undigits, Ud. apply dec_zeros.
        * cbn [List.length]. change (0 - Z.of_nat 0)%Z with 0%Z. change (inject_Z 10 ^ 0)%Q with 1%Q.
          rewrite N2Z.inj_mul, N2Z.inj_pow, inject_Z_mult. replace (Z.of_N (N.of_nat (Z.to_nat e))) with e by lia. change (Z.of_N 10) with 10%Z. rewrite ten_Z by exact He. ring.
    - set (fr := Z.to_nat (- e)). destruct (Nat.ltb_spec fr nd) as [L|L].
      + assert (Lf : List.length (skipn (nd - fr) ds) = fr) by (rewrite skipn_length; fold nd; lia). split.
        * pose proof (parts_read (firstn (nd - fr) ds) (46 :: skipn (nd - fr) ds) []) as X. rewrite !app_nil_r in X. apply X; [apply int_first; lia| |left; reflexivity].
          right. eexists. split; [reflexivity|]. split; [apply forallb_skipn|]. intros E. rewrite E in Lf. cbn in Lf. lia.
        * eexists. split.
          -- eapply (r_intro _ _ false (firstn (nd - fr) ds) (bs ".") (skipn (nd - fr) ds) [] D 0%Z); [apply s_none|rewrite app_nil_r; reflexivity|left; reflexivity| | |left; auto].
             ++ rewrite firstn_skipn. exact ds_ne.
             ++ rewrite firstn_skipn, dec_undigits. exact Ud.
          -- rewrite Lf. replace (0 - Z.of_nat fr)%Z with e by lia. ring.
      + set (z := repeat 48 (fr - nd)). assert (Lf : List.length (z ++ ds) = fr) by (rewrite app_length; unfold z; rewrite repeat_length; fold nd; lia). split.
        * pose proof (parts_read [48] (46 :: z ++ ds) []) as X. rewrite !app_nil_r in X. apply X; [split; [reflexivity|left; reflexivity]| |left; reflexivity].
          right. eexists. split; [reflexivity|]. split; [rewrite forallb_app, Fd, andb_true_r; apply zeros_dig|]. intros E. rewrite E in Lf. cbn in Lf. lia.
        * eexists. split.
          -- eapply (r_intro _ _ false [48] (bs ".") (z ++ ds) [] D 0%Z); [apply s_none|rewrite app_nil_r; reflexivity|left; reflexivity|discriminate| |left; auto].
             cbn [app]. change (48 :: z ++ ds) with (repeat 48 (S (fr - nd)) ++ ds). rewrite dec_app, dec_zeros, N.mul_0_l, dec_undigits. exact Ud.
          -- rewrite Lf. replace (0 - Z.of_nat fr)%Z with e by lia. ring.
  Qed.
  Lemma format_e_good : (Z.abs (e + Z.of_nat nd - 1) < 100000)%Z -> good (format_e ds e).
  Proof.
    intros B. unfold format_e. fold nd. set (x := (e + Z.of_nat nd - 1)%Z) in *.
    set (n := Z.to_N (Z.abs x)). assert (Ln : n < 100000) by lia.
    assert (Ln' : n < 10 ^ N.of_nat 20) by (eapply N.lt_trans; [exact Ln|reflexivity]).
    destruct (digits_spec 20 n ltac:(lia) Ln') as (A & U & C).
    set (es := if (n <? 10) && (0 <=? x)%Z then 48 :: Json.digits 20 n else Json.digits 20 n).
    assert (Ea : forallb is_dig es = true) by (unfold es; destruct (_ && _); [exact A|exact A]).
    assert (Eu : Cmdline.decimal es 0 = Some n) by (rewrite dec_undigits; unfold es; destruct (_ && _); exact U).
    assert (En : es <> []) by (unfold es; destruct (_ && _); [discriminate|]; destruct C as [-> | (d & t & -> & _)]; discriminate).
    set (sg := if (x <? 0)%Z then bs "-" else bs "+").
    assert (Sg : exists c, sg = [c] /\ (c = 43 \/ c = 45)) by (unfold sg; destruct (x <? 0)%Z; eexists; split; try reflexivity; auto).
    destruct Sg as (c & Ec & Hc).
    assert (Lt : List.length (skipn 1 ds) = (nd - 1)%nat) by (rewrite skipn_length; reflexivity).
    assert (Ep : exp_part (bs "e" ++ sg ++ es)). { right. exists c, es. rewrite Ec. split; [reflexivity|]. auto. }
    assert (Re : exists E u dd eneg n0, (E = bs "e" \/ E = bs "E") /\ (bs "e" ++ sg ++ es) = E ++ u /\ signed u dd eneg /\ dd <> [] /\
       Cmdline.decimal dd 0 = Some n0 /\ n0 < 100000 /\ x = if eneg : bool then (- Z.of_N n0)%Z else Z.of_N n0).
    { exists (bs "e"), (sg ++ es), es, (x <? 0)%Z, n. split; [left; reflexivity|]. split; [reflexivity|]. split; [unfold sg; destruct (x <? 0)%Z; constructor|].
      split; [exact En|]. split; [exact Eu|]. split; [exact Ln|]. destruct (Z.ltb_spec x 0); lia. }
    assert (Dd : Cmdline.decimal (firstn 1 ds ++ skipn 1 ds) 0 = Some D) by (rewrite firstn_skipn, dec_undigits; exact Ud).
    assert (Nd : firstn 1 ds ++ skipn 1 ds <> []) by (rewrite firstn_skipn; exact ds_ne).
    assert (N1 : (1 <= nd)%nat) by (unfold nd; pose proof ds_ne; destruct ds; [congruence|cbn; lia]).
    pose proof (forallb_skipn 1) as Fs. pose proof (int_first 1 ltac:(lia)) as Fi.
    set (w := firstn 1 ds) in *. set (f := skipn 1 ds) in *. clearbody w f sg es. destruct f as [|f0 f].
    - cbn [app]. split.
      + apply (parts_read w [] _ Fi (or_introl eq_refl) Ep).
      + eexists. split; [eapply (r_intro _ _ false w [] [] _ D x); [apply s_none|reflexivity|right; auto|exact Nd|exact Dd|right; exact Re]|].
        cbn [List.length] in Lt |- *. replace (x - Z.of_nat 0)%Z with e by lia. ring.
    - split.
      + apply (parts_read w (bs "." ++ f0 :: f) _ Fi); [|exact Ep]. right. eexists. split; [reflexivity|]. split; [exact Fs|discriminate].
      + eexists. split; [eapply (r_intro _ _ false w (bs ".") (f0 :: f) _ D x); [apply s_none|rewrite <- !app_assoc; reflexivity|left; reflexivity|exact Nd|exact Dd|right; exact Re]|].
        rewrite Lt. replace (x - Z.of_nat (nd - 1))%Z with e by lia. ring.
  Qed.
End Format.

(** * Numbers in JSON *)
Lemma digits_length fuel : forall n, (List.length (Json.digits fuel n) <= S fuel)%nat.
Proof.
  induction fuel as [|k IH]; intros n; cbn [Json.digits]; [cbn; lia|]. destruct (n <? 10); [cbn; lia|]. rewrite app_length. specialize (IH (n / 10)). cbn [List.length]. lia.
Qed.
Lemma found_bound x d e : double x -> (0 < x)%Q -> found x d e -> (e <= 309)%Z -> Z.to_N d < 10 ^ N.of_nat 1400.
Proof.
  intros Dx Px (D0 & E0 & _ & B & _) E1. pose proof (double_bound x Dx) as Bx. rewrite Qabs_pos in Bx by lra.
  pose proof (ten_pos e) as Pe. unfold at_ in B.
  assert (X : (x < inject_Z (10 ^ 1384) * inject_Z 10 ^ e)%Q).
  { rewrite ten_Z, <- ten_plus by lia. eapply Qlt_le_trans; [eapply Qlt_trans; [exact Bx|]|apply (ten_mono 310); lia]. reflexivity. }
  assert (Y : (inject_Z d < inject_Z (10 ^ 1384 + 1))%Q).
  { apply (Qmult_lt_r _ _ (inject_Z 10 ^ e)); [exact Pe|]. rewrite inject_Z_plus. change (inject_Z 1) with 1%Q. lra. }
  rewrite <- Zlt_Qlt in Y. change (N.of_nat 1400) with 1400. 
  assert (Z.of_N (Z.to_N d) < Z.of_N (10 ^ 1400))%Z; [|lia]. rewrite N2Z.inj_pow. change (Z.of_N 10) with 10%Z. change (Z.of_N 1400) with 1400%Z.
  rewrite Z2N.id by lia. eapply Z.lt_trans; [exact Y|]. vm_compute. reflexivity.
Qed.

Lemma json_float_zero x : (x == 0)%Q -> json_float (Fin x) = Some (bs "0").
Proof. intros E. unfold json_float. replace (Qeq_bool x 0) with true by (symmetry; apply Qeq_bool_iff; exact E). reflexivity. Qed.
Lemma json_float_ok x : double x -> (0 <= x)%Q -> exists t, json_float (Fin x) = Some t /\ JsonP.reads_as t (JNum t) /\ exactly x t.
Proof.
  intros Dx Hx. destruct (Qeq_dec x 0) as [E|Nx].
  - exists (bs "0"). split; [exact (json_float_zero x E)|]. split.
    + pose proof (parts_read [48] [] []) as X. rewrite !app_nil_r in X. apply X; [split; [reflexivity|left; reflexivity]| |]; left; reflexivity.
    + eexists. split; [eapply (r_intro _ _ false [48] [] [] [] 0 0%Z); [apply s_none|reflexivity|right; auto|discriminate|reflexivity|left; auto]|].
      assert (Z : (1 * inject_Z (Z.of_N 0) * inject_Z 10 ^ (0 - Z.of_nat (List.length (@nil N))) == 0)%Q) by reflexivity.
      split; [|left; exact Z]. apply round64_is. apply (is_eq _ 0%Q); [symmetry; exact E|]. apply is_fin.
  - assert (Px : (0 < x)%Q) by lra. unfold json_float.
    replace (Qeq_bool x 0) with false by (symmetry; apply not_true_is_false; rewrite Qeq_bool_iff; exact Nx).
    replace (Qle_bool 0 x) with true by (symmetry; apply Qle_bool_iff; exact Hx). cbn [app].
    assert (Sp : let '(d, e) := shortest (Qabs x) in found x d e /\ (e <= 309)%Z /\ forall d' g, is (round64 (at_ d' g)) x -> (g <= e)%Z).
    { assert (Ea : Qabs x = x) by (destruct x as [[|p|p] q]; [reflexivity|reflexivity|exfalso; now apply Hx]). rewrite Ea. exact (shortest_spec x Px Dx). }
    destruct (shortest (Qabs x)) as [d e]. destruct Sp as (Fo & E1 & Sh). pose proof (found_bound x d e Dx Px Fo E1) as Ld.
    destruct (digits_spec 1400 (Z.to_N d) ltac:(lia) Ld) as (A & U & C). pose proof (digits_length 1400 (Z.to_N d)) as Ll.
    destruct Fo as (D0 & E0 & R & _ & Nr).
    assert (Nz : exists c t, Json.digits 1400 (Z.to_N d) = c :: t /\ c <> 48).
    { destruct C as [C | (c & t & C & N & _)]; [|eauto]. rewrite C in U. cbn in U. injection U as U. lia. }
    set (ds := Json.digits 1400 (Z.to_N d)) in *.
    assert (G : forall t, good (Z.to_N d) e t -> JsonP.reads_as t (JNum t) /\ exactly x t).
    { intros t [Rd (q & Rq & Eq)]. split; [exact Rd|]. rewrite Z2N.id in Eq by lia. fold (at_ d e) in Eq. apply round64_is in R.
      exists q. split; [exact Rq|]. split; [unfold converted; rewrite Eq; exact R|]. right. exists d, e. split; [exact Eq|]. intros d' e' R'. fold (at_ d' e') in *.
      apply round64_is in R'. split; [exact (Sh d' e' R')|]. intros ->. rewrite Eq. exact (Nr d' R'). }
    eexists. split; [reflexivity|]. destruct (_ || _).
    + apply G, format_e_good; [exact A|exact U|exact Nz|]. lia.
    + apply G, format_f_good; [exact A|exact U|exact Nz].
Qed.

(** * Two places *)
Lemma print_2f_ok x : (0 <= x)%Q -> double x -> two_places x (print_2f (Fin x)).
Proof.
  intros Hx Dx. unfold print_2f. replace (Qle_bool 0 x) with true by (symmetry; apply Qle_bool_iff; exact Hx). cbn [app].
  assert (Ea : Qabs x = x) by (destruct x as [[|p|p] q]; [reflexivity|reflexivity|exfalso; now apply Hx]). rewrite Ea.
  set (y := (x * 100)%Q). pose proof (nearest_spec y) as Ns. cbv zeta in Ns. set (c := nearest _ _) in *.
  assert (Bx : (x < 2 ^ 1024)%Q). { pose proof (double_bound x Dx) as B. rewrite Qabs_pos in B by exact Hx. assert (0 < 2 ^ 970)%Q by apply two_pos. lra. }
  assert (C0 : (0 <= c)%Z).
  { assert (-1 < c)%Z; [|lia]. rewrite Zlt_Qlt. change (inject_Z (-1)) with (-1)%Q. apply Qabs_Qle_condition in Ns. unfold y in Ns. lra. }
  assert (C1 : (c < 10 ^ 400)%Z).
  { rewrite Zlt_Qlt. apply Qabs_Qle_condition in Ns. apply Qlt_trans with (2 ^ 1024 * 101)%Q; [|vm_compute; reflexivity].
    assert (1 < 2 ^ 1024)%Q by reflexivity. unfold y in Ns. lra. }
  clearbody c. rewrite <- (Z2N.id c) in Ns, C1 by exact C0. set (n := Z.to_N c) in *. clearbody n. clear C0 Ea.
  assert (Ln : n < 10 ^ N.of_nat 1400).
  { assert (Z.of_N n < Z.of_N (10 ^ 1400))%Z; [|change (N.of_nat 1400) with 1400; lia]. eapply Z.lt_trans; [exact C1|]. vm_compute. reflexivity. }
  pose proof (N.div_mod n 100 ltac:(lia)) as E1. pose proof (N.mod_lt n 100 ltac:(lia)) as L1.
  pose proof (N.div_mod n 10 ltac:(lia)) as E2. pose proof (N.mod_lt n 10 ltac:(lia)) as L2.
  pose proof (N.div_mod (n / 10) 10 ltac:(lia)) as E3. pose proof (N.mod_lt (n / 10) 10 ltac:(lia)) as L3.
  assert (Lq : n / 100 < 10 ^ N.of_nat 1400) by (eapply N.le_lt_trans; [|exact Ln]; apply N.div_le_upper_bound; lia).
  apply (two_places_ x _ (n / 100)); [apply digits_numeral; [exact Lq|lia]|exact L3|exact L2|].
  assert (En : 100 * (n / 100) + 10 * (n / 10 mod 10) + n mod 10 = n).
  { assert (n / 100 = n / 10 / 10) by (rewrite N.div_div by lia; reflexivity). lia. }
  rewrite En. unfold y in Ns. apply Qabs_Qle_condition. apply Qabs_Qle_condition in Ns.
  setoid_replace (inject_Z (Z.of_N n) / 100 - x)%Q with ((inject_Z (Z.of_N n) - x * 100) * (1 # 100))%Q by field. lra.
Qed.

(** * The numbers of the statistics *)
Lemma fin_double x y : round64 x = Fin y -> double y.
Proof. intros E. assert (I : is (round64 x) y) by (exists y; split; [exact E|reflexivity]). apply round64_is in I. exact (proj1 (proj2 I)). Qed.
Lemma fdiv_double a b y : fdiv a b = Fin y -> double y.
Proof.
  unfold fdiv. destruct a as [a|n|], b as [b|m|]; intros E; try discriminate.
  - destruct (Qeq_bool b 0); [destruct (Qeq_bool a 0); discriminate|]. exact (fin_double _ _ E).
  - injection E as <-. exact double_0.
Qed.
Lemma fsqrt_double a y : (forall x, a = Fin x -> double x) -> fsqrt a = Fin y -> double y.
Proof.
  intros Da E. destruct a as [a|[|]|]; try discriminate. specialize (Da a eq_refl). cbn [fsqrt] in E. destruct (Qcompare_spec a 0) as [C | C | C]; try discriminate.
  - injection E as <-. exact double_0.
  - destruct (sqrt_pos_rounded a C Da) as (w & (z & Ez & Z) & R). rewrite E in Ez. injection Ez as ->. rewrite Z. exact (proj1 R).
Qed.
