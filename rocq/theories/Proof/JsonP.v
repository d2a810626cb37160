(** What json.MarshalIndent writes, json.Unmarshal reads. *)
From Verif Require Import Model.Base Model.Utf8 Model.Blotter Model.Config Model.Json Spec.Text Proof.Tactics Proof.Utf8P.
Local Open Scope N_scope.

(** * Strings *)
Lemma firstn_front {A} (a b : list A) : firstn (length a) (a ++ b) = a.
Proof. rewrite firstn_app, firstn_all, Nat.sub_diag. apply app_nil_r. Qed.
Lemma skipn_front {A} (a b : list A) : skipn (length a) (a ++ b) = b.
Proof. rewrite skipn_app, skipn_all, Nat.sub_diag. reflexivity. Qed.
Lemma small_cases c : c < 128 -> In c (map N.of_nat (seq 0 128)).
Proof.
  intros L. apply in_map_iff. exists (N.to_nat c). split; [apply N2Nat.id|]. apply in_seq. lia.
Qed.
Lemma scan_escape c : c < 128 -> html_safe c = false -> forall k tail,
  scan_string (S k) (escape c ++ tail) = match scan_string k tail with Some (t, r) => Some (c :: t, r) | None => None end.
Proof.
  intros L U k tail. apply small_cases in L. cbn [map seq] in L.
  repeat (destruct L as [<-|L]; [first [discriminate U|reflexivity]|]). destruct L.
Qed.
Lemma scan_safe c : c < 128 -> html_safe c = true -> forall k tail,
  scan_string (S k) (c :: tail) = match scan_string k tail with Some (t, r) => Some (c :: t, r) | None => None end.
Proof.
  intros L U k tail. unfold html_safe in U. apply andb_true_iff in U. destruct U as [U1 U2]. apply N.leb_le in U1.
  apply negb_true_iff in U2. rewrite !orb_false_iff in U2. destruct U2 as [[[[A B] _] _] _].
  cbn [scan_string]. rewrite A, B. rewrite (proj2 (N.ltb_ge c 32) U1), (proj2 (N.ltb_lt c 128) L). reflexivity.
Qed.
Lemma utf8_high r : 128 <= r -> exists b t, utf8 r = b :: t /\ 128 <= b.
Proof.
  intros L. unfold utf8. destruct (N.ltb_spec r 128); [lia|].
  destruct (r <? 2048); [eexists _, _; split; [reflexivity|lia]|]. destruct (r <? 65536); eexists _, _; split; try reflexivity; lia.
Qed.
Lemma scan_high r : scalar r -> 128 <= r -> forall k tail,
  scan_string (S k) (utf8 r ++ tail) = match scan_string k tail with Some (t, x) => Some (utf8 r ++ t, x) | None => None end.
Proof.
  intros Sc L k tail. pose proof (decode_utf8 r tail Sc) as D. destruct (utf8_high r L) as (b & t & E & Hb).
  rewrite E in *. cbn [app] in *. remember (length (b :: t)) as n eqn:En.
  cbn [scan_string]. destruct (N.eqb_spec b 34); [lia|]. destruct (N.eqb_spec b 92); [lia|].
  destruct (N.ltb_spec b 32); [lia|]. destruct (N.ltb_spec b 128); [lia|]. rewrite D, En.
  change (b :: t ++ tail) with ((b :: t) ++ tail). rewrite firstn_front, skipn_front. reflexivity.
Qed.
Lemma scan_line_sep r : r = 8232 \/ r = 8233 -> forall k tail,
  scan_string (S k) ([92; 117; 50; 48; 50; hex_digit (r mod 16)] ++ tail) = match scan_string k tail with Some (t, x) => Some (utf8 r ++ t, x) | None => None end.
Proof. intros [->| ->] k tail; reflexivity. Qed.

Lemma scan_quoted rs : Forall scalar rs -> forall f fuel rest, (length (utf8s rs) <= f)%nat -> (length (quote_loop f (utf8s rs)) < fuel)%nat ->
  scan_string fuel (quote_loop f (utf8s rs) ++ 34 :: rest) = Some (utf8s rs, rest).
Proof.
  induction 1 as [|r rs Sc F IH]; intros f fuel rest Lf Lq.
  - cbn [utf8s map concat]. destruct fuel; [lia|]. destruct f; reflexivity.
  - rewrite utf8s_cons in *. rewrite app_length in Lf. pose proof (utf8_nonempty r) as Ln. destruct f as [|f]; [lia|].
    destruct (N.ltb_spec r 128) as [Hr|Hr].
    + assert (E : utf8 r = [r]) by (unfold utf8; rewrite (proj2 (N.ltb_lt r 128) Hr); reflexivity). rewrite E in *. cbn [app length] in *.
      cbn [quote_loop] in *. rewrite (proj2 (N.ltb_lt r 128) Hr) in *.
      assert (X : forall k, (length (quote_loop f (utf8s rs)) < k)%nat -> scan_string k (quote_loop f (utf8s rs) ++ 34 :: rest) = Some (utf8s rs, rest)).
      { intros k Hk. apply IH; [lia|exact Hk]. }
      destruct fuel as [|fuel]; [lia|]. destruct (html_safe r) eqn:Hs.
      * cbn [app length] in *. rewrite scan_safe by assumption. rewrite X by lia. reflexivity.
      * rewrite app_length in Lq. rewrite <- app_assoc, scan_escape by assumption.
        assert (1 <= length (escape r))%nat by (unfold escape; repeat (destruct (_ || _) || destruct (_ =? _)); cbn [length]; lia).
        rewrite X by lia. reflexivity.
    + destruct (utf8_high r Hr) as (b & t & E & Hb). pose proof (decode_utf8 r (utf8s rs) Sc) as D. pose proof (scan_high r Sc Hr) as Sh.
      rewrite E in D, Lf, Sh, Lq |- *. cbn [app] in Lq, D |- *. cbn [quote_loop] in *. destruct (N.ltb_spec b 128); [lia|].
      rewrite D in *. change (b :: t ++ utf8s rs) with ((b :: t) ++ utf8s rs) in *.
      rewrite firstn_front, skipn_front in *. cbn [app] in Lq |- *.
      destruct fuel as [|fuel]; [destruct ((_ =? _) || _); cbn [app length] in Lq; lia|].
      destruct ((r =? 8232) || (r =? 8233)) eqn:Ls.
      * apply orb_true_iff in Ls. rewrite !N.eqb_eq in Ls. rewrite app_length in Lq. cbn [length] in Lq.
        rewrite <- app_assoc, (scan_line_sep r Ls), IH by (cbn [length] in Lf; lia). rewrite E. reflexivity.
      * rewrite app_length in Lq. cbn [length] in Lq. rewrite <- app_assoc, Sh, IH by (cbn [length] in Lf; lia). reflexivity.
Qed.

(** * Numbers *)
Lemma undigits_app a : forall acc b, undigits acc (a ++ b) = match undigits acc a with Some x => undigits x b | None => None end.
Proof. induction a as [|c a IH]; intros acc b; cbn [undigits app]; [reflexivity|]. destruct (is_dig c); auto. Qed.
Lemma is_dig_of d : d < 10 -> is_dig (48 + d) = true.
Proof. intros L. unfold is_dig. apply in_range_true. lia. Qed.
Lemma digits_spec fuel : forall n, (0 < fuel)%nat -> n < 10 ^ N.of_nat fuel ->
  forallb is_dig (digits fuel n) = true /\ undigits 0 (digits fuel n) = Some n /\
  (digits fuel n = [48] \/ exists d t, digits fuel n = d :: t /\ d <> 48 /\ is_dig d = true).
Proof.
  induction fuel as [|k IH]; intros n Lf L; [lia|]. cbn [digits]. destruct (N.ltb_spec n 10) as [Hn|Hn].
  - cbn [forallb undigits]. rewrite is_dig_of by exact Hn. split; [reflexivity|]. split; [f_equal; lia|].
    destruct (N.eq_dec n 0) as [->|Nz]; [left; reflexivity|]. right. exists (48 + n), []. split; [reflexivity|]. split; [lia|apply is_dig_of, Hn].
  - destruct k as [|k]; [cbn in L; lia|].
    assert (Lk : n / 10 < 10 ^ N.of_nat (S k)).
    { apply N.div_lt_upper_bound; [lia|]. replace (N.of_nat (S (S k))) with (N.succ (N.of_nat (S k))) in L by lia. rewrite N.pow_succ_r' in L. exact L. }
    assert (Lm : n mod 10 < 10) by (apply N.mod_lt; lia).
    destruct (IH (n / 10) ltac:(lia) Lk) as (A & B & C). split; [|split].
    + rewrite forallb_app, A. cbn [forallb]. rewrite is_dig_of by exact Lm. reflexivity.
    + rewrite undigits_app, B. cbn [undigits]. rewrite is_dig_of by exact Lm. f_equal.
      pose proof (N.div_mod n 10 ltac:(lia)). lia.
    + right. destruct C as [C|(d & t & C & D & E)].
      * exfalso. rewrite C in B. change (undigits 0 [48]) with (Some 0) in B. assert (n / 10 = 0) by congruence.
        assert (1 <= n / 10) by (apply N.div_le_lower_bound; lia). lia.
      * exists d, (t ++ [48 + n mod 10]). rewrite C. split; [reflexivity|]. split; assumption.
Qed.
(** What may follow a number. *)
Definition stops (s : bytes) : bool := match s with [] => true | c :: _ => negb (is_dig c || (c =? 46) || (c =? 101) || (c =? 69)) end.
Lemma take_digits_app ds : forall rest, forallb is_dig ds = true -> stops rest = true -> take_digits (ds ++ rest) = (ds, rest).
Proof.
  induction ds as [|d ds IH]; intros rest F St; cbn [app take_digits forallb] in *.
  - destruct rest as [|c r]; [reflexivity|]. cbn [take_digits]. cbn [stops] in St. destruct (is_dig c); [discriminate|reflexivity].
  - apply andb_true_iff in F. destruct F as [-> F]. rewrite IH by assumption. reflexivity.
Qed.
Lemma scan_tail rest : stops rest = true -> scan_frac rest = Some ([], rest) /\ scan_exp rest = Some ([], rest).
Proof.
  intros St. destruct rest as [|c r]; [split; reflexivity|]. cbn [stops] in St.
  apply negb_true_iff in St. rewrite !orb_false_iff in St. destruct St as [[[_ A] B] C]. split.
  - unfold scan_frac. rewrite N.eqb_neq in A. destruct c as [|p]; [reflexivity|]. do 6 (destruct p as [p|p|]; try reflexivity). congruence.
  - unfold scan_exp. rewrite B, C. reflexivity.
Qed.
Lemma scan_number_digits ds rest : forallb is_dig ds = true -> (ds = [48] \/ exists d t, ds = d :: t /\ d <> 48 /\ is_dig d = true) -> stops rest = true ->
  match (match ds ++ rest with
         | 48 :: r => Some ([48], r)
         | _ => let (ds, r) := take_digits (ds ++ rest) in match ds with [] => None | _ => Some (ds, r) end
         end) with
  | None => None
  | Some (ds, r) =>
      match scan_frac r with
      | None => None
      | Some (fr, r) => match scan_exp r with None => None | Some (ex, r) => Some (ds ++ fr ++ ex, r) end
      end
  end = Some (ds, rest).
Proof.
  intros F C St. destruct (scan_tail rest St) as [Tf Te]. pose proof (take_digits_app ds rest F St) as T.
  destruct C as [->|(d & t & -> & Nz & Dd)].
  - cbn [app]. rewrite Tf, Te. reflexivity.
  - rewrite T. cbn [app] in *.
    assert (E : forall (X Y : option (bytes * bytes)), match d :: t ++ rest with 48 :: _ => X | _ => Y end = Y).
    { intros X Y. destruct d as [|p]; [reflexivity|]. do 6 (destruct p as [p|p|]; try reflexivity). congruence. }
    rewrite E. rewrite Tf, Te, app_nil_r. reflexivity.
Qed.

Lemma int_scans z rest : (- 9223372036854775808 <= z < 9223372036854775808)%Z -> stops rest = true -> scan_number (json_int z ++ rest) = Some (json_int z, rest).
Proof.
  intros R St. unfold json_int. destruct (z <? 0)%Z eqn:Sg.
  - destruct (digits_spec 20 (Z.to_N (- z)) ltac:(lia)) as (F & _ & C). { change (10 ^ N.of_nat 20) with 100000000000000000000. lia. }
    remember (digits 20 (Z.to_N (- z))) as ds. clear Heqds. unfold scan_number. cbn [app].
    pose proof (scan_number_digits ds rest F C St) as X.
    destruct (match ds ++ rest with 48 :: r => Some ([48], r) | _ => _ end) as [[ds' r]|]; [|discriminate].
    destruct (scan_frac r) as [[fr r']|]; [|discriminate]. destruct (scan_exp r') as [[ex r2]|]; [|discriminate].
    inversion X as [[Ea Eb]]. rewrite Ea. reflexivity.
  - destruct (digits_spec 20 (Z.to_N z) ltac:(lia)) as (F & _ & C). { change (10 ^ N.of_nat 20) with 100000000000000000000. lia. }
    remember (digits 20 (Z.to_N z)) as ds. clear Heqds. unfold scan_number.
    assert (E : (match ds ++ rest with 45 :: r => ([45], r) | _ => ([], ds ++ rest) end) = ([], ds ++ rest)).
    { destruct C as [->|(d & t & -> & _ & Dd)]; [reflexivity|]. cbn [app]. unfold is_dig in Dd. apply in_range_elim in Dd.
      destruct d as [|p]; [reflexivity|]. do 6 (destruct p as [p|p|]; try reflexivity). lia. }
    rewrite E. pose proof (scan_number_digits ds rest F C St) as X.
    destruct (match ds ++ rest with 48 :: r => Some ([48], r) | _ => _ end) as [[ds' r]|]; [|discriminate].
    destruct (scan_frac r) as [[fr r']|]; [|discriminate]. destruct (scan_exp r') as [[ex r2]|]; [|discriminate].
    inversion X as [[Ea Eb]]. reflexivity.
Qed.
Lemma int_parses z : (- 9223372036854775808 <= z < 9223372036854775808)%Z -> parse_int (json_int z) = Some z.
Proof.
  intros R. unfold json_int. destruct (Z.ltb_spec z 0) as [Sg|Sg].
  - destruct (digits_spec 20 (Z.to_N (- z)) ltac:(lia)) as (_ & U & _). { change (10 ^ N.of_nat 20) with 100000000000000000000. lia. }
    cbn [parse_int]. rewrite U. destruct (N.leb_spec (Z.to_N (- z)) 9223372036854775808); [f_equal; lia|lia].
  - destruct (digits_spec 20 (Z.to_N z) ltac:(lia)) as (F & U & C). { change (10 ^ N.of_nat 20) with 100000000000000000000. lia. }
    remember (digits 20 (Z.to_N z)) as ds eqn:E. clear E.
    assert (E : parse_int ds = match undigits 0 ds with Some n => if n <? 9223372036854775808 then Some (Z.of_N n) else None | None => None end).
    { destruct C as [->|(d & t & -> & _ & Dd)]; [reflexivity|]. unfold is_dig in Dd. apply in_range_elim in Dd.
      destruct d as [|p]; [reflexivity|]. do 6 (destruct p as [p|p|]; try reflexivity). lia. }
    rewrite E, U. destruct (N.ltb_spec (Z.to_N z) 9223372036854775808); [f_equal; lia|lia].
Qed.
Lemma int_head z : (- 9223372036854775808 <= z < 9223372036854775808)%Z -> exists d t, json_int z = d :: t /\ (d = 45 \/ 48 <= d <= 57).
Proof.
  intros R. unfold json_int. destruct (z <? 0)%Z; [eexists _, _; split; [reflexivity|auto]|].
  destruct (digits_spec 20 (Z.to_N z) ltac:(lia)) as (F & U & C). { change (10 ^ N.of_nat 20) with 100000000000000000000. lia. }
  destruct C as [->|(d & t & -> & _ & Dd)]; [eexists _, _; split; [reflexivity|right; lia]|].
  unfold is_dig in Dd. apply in_range_elim in Dd. eexists _, _; split; [reflexivity|auto].
Qed.

(** * Values *)
Definition reads_as (pr : bytes) (v : jval) : Prop :=
  (exists c t, pr = c :: t /\ is_space c = false) /\
  forall fuel rest, (length pr <= fuel)%nat -> stops rest = true -> scan_value fuel (pr ++ rest) = Some (v, rest).
Lemma string_reads s rs : is_text s rs -> reads_as (json_string s) (JStr s).
Proof.
  intros [F ->]. split; [unfold json_string; eexists _, _; split; reflexivity|]. intros fuel rest L St.
  unfold json_string in *. rewrite !app_length in L. cbn [length] in L. destruct fuel as [|fuel]; [lia|].
  cbn [app scan_value]. change (34 =? 123) with false. change (34 =? 91) with false. change (34 =? 34) with true. cbv iota.
  rewrite <- app_assoc. cbn [app]. rewrite scan_quoted; [reflexivity|exact F|lia|]. rewrite app_length. cbn [length]. lia.
Qed.
Lemma int_reads z : (- 9223372036854775808 <= z < 9223372036854775808)%Z -> reads_as (json_int z) (JNum (json_int z)).
Proof.
  intros R. destruct (int_head z R) as (d & t & E & Hd). split.
  - exists d, t. split; [exact E|]. unfold is_space. rewrite !orb_false_iff, !N.eqb_neq. lia.
  - intros fuel rest L St. pose proof (int_scans z rest R St) as X. rewrite E in *. cbn [length] in L. destruct fuel as [|fuel]; [lia|].
    cbn [app scan_value] in *. destruct (N.eqb_spec d 123); [lia|]. destruct (N.eqb_spec d 91); [lia|]. destruct (N.eqb_spec d 34); [lia|].
    destruct (N.eqb_spec d 116); [lia|]. destruct (N.eqb_spec d 102); [lia|]. destruct (N.eqb_spec d 110); [lia|].
    rewrite X. reflexivity.
Qed.
Definition key_ok (k : bytes) : bool := forallb (fun c => (c <? 128) && html_safe c) k.
Lemma scan_key k : forall fuel rest, key_ok k = true -> (length k < fuel)%nat -> scan_string fuel (k ++ 34 :: rest) = Some (k, rest).
Proof.
  induction k as [|c k IH]; intros fuel rest K L; (destruct fuel as [|fuel]; [cbn [length] in L; lia|]); [reflexivity|].
  cbn [key_ok forallb length app] in *. apply andb_true_iff in K. destruct K as [K1 K2]. apply andb_true_iff in K1. destruct K1 as [K0 K1].
  apply N.ltb_lt in K0. rewrite scan_safe by assumption. rewrite IH by (assumption || lia). reflexivity.
Qed.
Lemma skip_tabs n x : skip_space (repeat 9 n ++ x) = skip_space x.
Proof. induction n as [|n IH]; cbn [repeat app skip_space]; [reflexivity|exact IH]. Qed.
Lemma skip_none c t : is_space c = false -> skip_space (c :: t) = c :: t.
Proof. intros H. cbn [skip_space]. rewrite H. reflexivity. Qed.
Definition field_ok (f : bytes * bytes) (m : bytes * jval) : Prop := fst m = fst f /\ key_ok (fst f) = true /\ reads_as (snd f) (snd m).
Lemma members_read ind d fs ms : Forall2 field_ok fs ms -> fs <> [] -> forall fuel rest,
  (length (json_fields (repeat 9%N ind) fs) <= fuel)%nat ->
  scan_members fuel (skip_space (json_fields (repeat 9 ind) fs ++ [10] ++ repeat 9 d ++ [125] ++ rest)) = Some (ms, rest).
Proof.
  induction 1 as [|[k pr] [k' v] fs ms (Ek & Ko & (Hd & Rd)) F IH]; intros Ne fuel rest L; [congruence|]. cbn [fst snd] in *. subst k'.
  destruct Hd as (c & t & Epr & Hc).
  assert (Main : forall fuel tail, (length pr + 1 <= fuel)%nat -> stops tail = true ->
    scan_members fuel (34 :: k ++ 34 :: 58 :: 32 :: pr ++ tail) =
    match skip_space tail with
    | 44 :: r4 => match scan_members (pred fuel) (skip_space r4) with Some (ms, r5) => Some ((k, v) :: ms, r5) | None => None end
    | 125 :: r4 => Some ([(k, v)], r4)
    | _ => None
    end).
  { intros fl tail Lf St. destruct fl as [|fl]; [lia|]. cbn [scan_members pred].
    rewrite scan_key by (assumption || (rewrite app_length; cbn [length]; lia)).
    rewrite (skip_none 58) by reflexivity. cbv iota.
    change (skip_space (32 :: pr ++ tail)) with (skip_space (pr ++ tail)).
    rewrite Epr at 1. cbn [app]. rewrite skip_none by exact Hc.
    replace (c :: t ++ tail) with (pr ++ tail) by (rewrite Epr; reflexivity).
    rewrite (Rd fl tail ltac:(lia) St). reflexivity. }
  destruct fs as [|f2 fs].
  - inversion F; subst ms. cbn [json_fields] in *.
    rewrite <- !app_assoc. change ([10] ++ ?x) with (10 :: x). cbn [app]. change (skip_space (10 :: ?x)) with (skip_space x).
    rewrite skip_tabs. rewrite (skip_none 34) by reflexivity.
    repeat (rewrite ?app_length in L; cbn [length] in L).
    rewrite Main by (reflexivity || lia). change (skip_space (10 :: ?x)) with (skip_space x). rewrite skip_tabs, (skip_none 125) by reflexivity. reflexivity.
  - assert (E : json_fields (repeat 9 ind) ((k, pr) :: f2 :: fs) = [10] ++ repeat 9 ind ++ [34] ++ k ++ [34; 58; 32] ++ pr ++ [44] ++ json_fields (repeat 9 ind) (f2 :: fs)) by reflexivity.
    rewrite E in *. clear E. remember (f2 :: fs) as fs' eqn:Ef.
    rewrite <- !app_assoc. change ([10] ++ ?x) with (10 :: x). cbn [app]. change (skip_space (10 :: ?x)) with (skip_space x).
    rewrite skip_tabs. rewrite (skip_none 34) by reflexivity.
    repeat (rewrite ?app_length in L; cbn [length] in L).
    rewrite Main by (reflexivity || lia). rewrite (skip_none 44) by reflexivity. cbv iota.
    change (10 :: repeat 9 d ++ 125 :: rest) with ([10] ++ repeat 9 d ++ [125] ++ rest).
    rewrite IH; [reflexivity|subst; discriminate|lia].
Qed.
Lemma object_reads d fs ms : Forall2 field_ok fs ms -> fs <> [] -> reads_as (json_object d fs) (JObj ms).
Proof.
  intros F Ne. split; [unfold json_object; eexists _, _; split; reflexivity|]. intros fuel rest L St.
  unfold json_object in *. rewrite !app_length in L. cbn [length] in L. destruct fuel as [|fuel]; [lia|].
  rewrite <- !app_assoc. change ([123] ++ ?x) with (123 :: x). cbn [scan_value].
  change (123 =? 123) with true. cbv iota.
  pose proof (members_read (S d) d fs ms F Ne fuel rest ltac:(lia)) as M.
  remember (skip_space (json_fields (repeat 9 (S d)) fs ++ [10] ++ repeat 9 d ++ [125] ++ rest)) as s eqn:Es. clear Es.
  destruct s as [|c r]; [destruct fuel; discriminate|]. destruct fuel as [|fuel]; [discriminate|].
  assert (c = 34). { cbn [scan_members] in M. destruct c as [|p]; [discriminate|]. do 6 (destruct p as [p|p|]; try discriminate). reflexivity. }
  subst c. rewrite M. reflexivity.
Qed.
