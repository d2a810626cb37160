(** The parser of Model/Json reads exactly the texts of Spec/JsonText. *)
From Verif Require Import Model.Base Model.Utf8 Model.Blotter Model.Config Model.Json Spec.Str Spec.Text Spec.Configs Spec.JsonText Proof.Tactics Proof.Utf8P Proof.JsonP Proof.JsonP2.
From Coq Require Import Lia.
Local Open Scope N_scope.
Local Open Scope list_scope.

Local Notation digit := JsonText.digit.
Definition texty (s : bytes) : Prop := exists rs, is_text s rs.
Lemma texty_nil : texty [].
Proof. exists []. split; [constructor|reflexivity]. Qed.
Lemma texty_tail c s : texty (c :: s) -> c < 128 -> texty s.
Proof.
  intros ([|r rs] & F & E) L; [discriminate|]. inversion F; subst. rewrite utf8s_cons in E.
  assert (utf8 r = [r]) as U.
  { unfold utf8 in *. destruct (N.ltb_spec r 128) as [|Hr]; [reflexivity|]. destruct (r <? 2048); [injection E; intros; lia|].
    destruct (r <? 65536); injection E; intros; lia. }
  rewrite U in E. cbn [app] in E. injection E as _ E. exists rs. split; assumption.
Qed.
Lemma texty_rest a : forall s, texty (a ++ s) -> Forall (fun c => c < 128) a -> texty s.
Proof. induction a as [|c a IH]; intros s T F; [exact T|]. inversion F; subst. apply IH; [|assumption]. exact (texty_tail _ _ T ltac:(assumption)). Qed.
Lemma texty_char s : texty s -> s <> [] -> exists r n, decode_rune s = Some (r, n) /\ scalar r /\ n = length (utf8 r) /\ s = utf8 r ++ skipn n s /\ texty (skipn n s).
Proof.
  intros ([|r rs] & F & E) Ne; [subst; contradiction|]. inversion F; subst. rewrite utf8s_cons.
  exists r, (length (utf8 r)). rewrite decode_utf8 by assumption. rewrite skipn_front. repeat split; try assumption.
  exists rs. split; [assumption|reflexivity].
Qed.

(** * Strings *)
Lemma hex_value_spec c d : hex_value c = Some d <-> hex c d.
Proof.
  unfold hex_value, hex, in_range. split.
  - destruct (N.leb_spec 48 c), (N.leb_spec c 57); cbn [andb]; try (intros E; injection E as <-; lia);
    destruct (N.leb_spec 97 c), (N.leb_spec c 102); cbn [andb]; try (intros E; injection E as <-; lia);
    destruct (N.leb_spec 65 c), (N.leb_spec c 70); cbn [andb]; try (intros E; injection E as <-; lia); intros E; try discriminate.
  - intros H. destruct (N.leb_spec 48 c), (N.leb_spec c 57); cbn [andb]; try (f_equal; lia);
    destruct (N.leb_spec 97 c), (N.leb_spec c 102); cbn [andb]; try (f_equal; lia);
    destruct (N.leb_spec 65 c), (N.leb_spec c 70); cbn [andb]; try (f_equal; lia); exfalso; lia.
Qed.
Lemma hex4_in h x r : hex_4 x h -> hex4 (h ++ r) = Some (x, r).
Proof.
  intros [a b c d n1 n2 n3 n4 A B C D]. cbn [app hex4]. rewrite <- hex_value_spec in A, B, C, D. rewrite A, B, C, D.
  replace (((n1 * 16 + n2) * 16 + n3) * 16 + n4) with (4096 * n1 + 256 * n2 + 16 * n3 + n4) by lia. reflexivity.
Qed.
Lemma hex4_out s x r : hex4 s = Some (x, r) -> exists h, s = h ++ r /\ hex_4 x h.
Proof.
  destruct s as [|a [|b [|c [|d s]]]]; try discriminate. cbn [hex4].
  destruct (hex_value a) eqn:A; [|discriminate]. destruct (hex_value b) eqn:B; [|discriminate].
  destruct (hex_value c) eqn:C; [|discriminate]. destruct (hex_value d) eqn:D; [|discriminate]. intros E. inversion E; subst.
  exists [a; b; c; d]. split; [reflexivity|]. apply hex_value_spec in A, B, C, D.
  replace (((n * 16 + n0) * 16 + n1) * 16 + n2) with (4096 * n + 256 * n0 + 16 * n1 + n2) by lia. constructor; assumption.
Qed.
Lemma hex_ascii c d : hex c d -> c < 128.
Proof. unfold hex. lia. Qed.
Lemma hex4_ascii x h : hex_4 x h -> Forall (fun c => c < 128) h.
Proof. intros [a b c d n1 n2 n3 n4 A B C D]. repeat (constructor; [eapply hex_ascii; eassumption|]). constructor. Qed.
Lemma hex4_len x h : hex_4 x h -> length h = 4%nat.
Proof. intros []. reflexivity. Qed.
Lemma surrogate_dec x : in_range 55296 57343 x = true <-> high_half x \/ low_half x.
Proof. unfold in_range, high_half, low_half. rewrite andb_true_iff, !N.leb_le. lia. Qed.
Lemma not_surrogate x : in_range 55296 57343 x = false <-> ~ high_half x /\ ~ low_half x.
Proof. rewrite <- not_true_iff_false, surrogate_dec. tauto. Qed.
Lemma pair_in x y h' r : high_half x -> hex_4 y h' -> low_half y -> pair_at x (92 :: 117 :: h' ++ r) = Some (of_pair x y, r).
Proof.
  intros H E L. unfold pair_at. change (expect [92; 117] (92 :: 117 :: h' ++ r)) with (Some (h' ++ r)). cbv iota. rewrite (hex4_in _ _ _ E).
  unfold high_half, low_half, in_range in *. rewrite (proj2 (N.ltb_lt x 56320)) by lia. rewrite (proj2 (N.leb_le 56320 y)), (proj2 (N.leb_le y 57343)) by lia.
  cbn [andb]. unfold of_pair. replace (65536 + (x - 55296) * 1024 + (y - 56320)) with (65536 + 1024 * (x - 55296) + (y - 56320)) by lia. reflexivity.
Qed.
Lemma expect_out w : forall s r, expect w s = Some r -> s = w ++ r.
Proof.
  induction w as [|a w IH]; intros s r E; cbn [expect] in E; [destruct s; injection E as <-; reflexivity|]. destruct s as [|b s]; [discriminate|].
  destruct (N.eqb_spec a b) as [->|]; [|discriminate]. cbn [app]. f_equal. apply IH, E.
Qed.
Lemma expect_in w r : expect w (w ++ r) = Some r.
Proof. induction w as [|a w IH]; [reflexivity|]. cbn [expect app]. rewrite N.eqb_refl. exact IH. Qed.
Lemma pair_out x s z r : in_range 55296 57343 x = true -> pair_at x s = Some (z, r) -> high_half x /\ exists y h', s = 92 :: 117 :: h' ++ r /\ hex_4 y h' /\ low_half y /\ z = of_pair x y.
Proof.
  intros Su. unfold pair_at. destruct (expect [92; 117] s) as [r3|] eqn:E; [|discriminate]. apply expect_out in E. subst s.
  destruct (hex4 r3) as [[y r4]|] eqn:E; [|discriminate]. apply hex4_out in E. destruct E as (h' & -> & H).
  unfold in_range. destruct (N.ltb_spec x 56320) as [L|]; [|discriminate]. destruct (N.leb_spec 56320 y), (N.leb_spec y 57343); try discriminate. cbn [andb].
  intros X. injection X as <- <-. apply surrogate_dec in Su. unfold high_half, low_half in *. split; [lia|]. exists y, h'. repeat split; try assumption; try lia.
  unfold of_pair. lia.
Qed.
Lemma hex4_cut q rest y r : hex4 (q ++ 34 :: rest) = Some (y, r) -> exists h' t', q = h' ++ t' /\ hex_4 y h'.
Proof.
  intros E. destruct q as [|a [|b [|c [|d q]]]].
  1: { cbn [app hex4] in E. destruct rest as [|? [|? [|? ?]]]; discriminate E. }
  1: { cbn [app hex4] in E. destruct rest as [|? [|? ?]]; try discriminate E. destruct (hex_value a); discriminate E. }
  1: { cbn [app hex4] in E. destruct rest as [|? ?]; try discriminate E. destruct (hex_value a); [|discriminate E]. destruct (hex_value b); discriminate E. }
  1: { cbn [app hex4] in E. destruct (hex_value a); [|discriminate E]. destruct (hex_value b); [|discriminate E]. destruct (hex_value c); discriminate E. }
  change ((a :: b :: c :: d :: q) ++ 34 :: rest) with ([a; b; c; d] ++ q ++ 34 :: rest) in E. destruct (hex4_out _ _ _ E) as (h' & X & H).
  exists h', q. split; [|exact H].
  assert (h' = [a; b; c; d]) as ->.
  { destruct H. cbn [app] in X. injection X as -> -> -> -> _. reflexivity. }
  reflexivity.
Qed.
Lemma pair_cut x t rest z r : in_range 55296 57343 x = true -> pair_at x (t ++ 34 :: rest) = Some (z, r) ->
  high_half x /\ exists y h' t', t = 92 :: 117 :: h' ++ t' /\ hex_4 y h' /\ low_half y.
Proof.
  intros Su E. destruct (pair_out _ _ _ _ Su E) as (H & y & h & X & A & B & _). split; [exact H|].
  destruct t as [|a [|b q]]; try discriminate X. cbn [app] in X. injection X as -> -> X.
  destruct (hex4_cut q rest y r) as (h' & t' & -> & H'); [rewrite X; apply hex4_in, A|]. exists y, h', t'. repeat split; try assumption; apply B.
Qed.
Lemma utf8_small r : r < 128 -> utf8 r = [r].
Proof. intros L. unfold utf8. rewrite (proj2 (N.ltb_lt r 128) L). reflexivity. Qed.
Lemma short_in e r : In (e, r) [(34, 34); (92, 92); (47, 47); (98, 8); (102, 12); (110, 10); (114, 13); (116, 9)] -> unescape e = Some r /\ e <> 117 /\ r < 128 /\ e < 128.
Proof. intros H. cbn [In] in H. repeat (destruct H as [H|H]; [injection H as <- <-; repeat split; discriminate || reflexivity|]). contradiction. Qed.
Lemma short_out e r : unescape e = Some r -> In (e, r) [(34, 34); (92, 92); (47, 47); (98, 8); (102, 12); (110, 10); (114, 13); (116, 9)].
Proof.
  unfold unescape. cbn [In]. destruct (N.eqb_spec e 34); [|destruct (N.eqb_spec e 92); [|destruct (N.eqb_spec e 47)]]; cbn [orb]; try (intros E; injection E as <-; subst; tauto).
  repeat match goal with |- context [?a =? ?b] => destruct (N.eqb_spec a b); [intros E; injection E as <-; subst; tauto|] end. discriminate.
Qed.
Lemma written_plain x : ~ high_half x -> ~ low_half x -> x < 1114112 -> written x = x.
Proof.
  unfold high_half, low_half, written. intros A B C. destruct (N.ltb_spec x 55296); [reflexivity|]. destruct (N.leb_spec 57344 x), (N.ltb_spec x 1114112); cbn [orb andb]; try reflexivity; lia.
Qed.
Lemma hex4_small x h : hex_4 x h -> x < 65536.
Proof. intros [a b c d n1 n2 n3 n4 A B C D]. unfold hex in *. lia. Qed.
Lemma pair_plain x y : high_half x -> low_half y -> written (of_pair x y) = of_pair x y.
Proof. intros A B. unfold high_half, low_half, of_pair in *. apply written_plain; unfold high_half, low_half; lia. Qed.

Lemma scan_chars cs t : chars cs t -> forall fuel rest, (length t < fuel)%nat -> scan_string fuel (t ++ 34 :: rest) = Some (utf8s cs, rest).
Proof.
  induction 1 as [|r rs t Sc L N1 N2 C IH|e r rs t I C IH|x h rs t H A B C IH|x h y h' rs t H Hi H' Lo C IH|x h rs t H Su Al C IH]; intros fuel rest Lf.
  - destruct fuel; [cbn in Lf; lia|]. reflexivity.
  - rewrite app_length in Lf. pose proof (utf8_nonempty r). destruct fuel as [|k]; [lia|]. rewrite <- app_assoc, utf8s_cons. destruct (N.ltb_spec r 128) as [Hr|Hr].
    + rewrite (utf8_small r Hr). cbn [app]. rewrite scan_step. destruct (N.eqb_spec r 34); [contradiction|]. destruct (N.eqb_spec r 92); [contradiction|].
      rewrite (proj2 (N.ltb_ge r 32) L), (proj2 (N.ltb_lt r 128) Hr). rewrite IH by lia. reflexivity.
    + rewrite scan_high by assumption. rewrite IH by lia. reflexivity.
  - cbn [length] in Lf. destruct fuel as [|k]; [lia|]. cbn [app]. rewrite scan_step. destruct (short_in _ _ I) as (U & Ne & Hr & _).
    change (92 =? 34) with false. change (92 =? 92) with true. cbv iota. rewrite (proj2 (N.eqb_neq _ _) Ne), U, IH by lia.
    rewrite utf8s_cons, (utf8_small r Hr). reflexivity.
  - cbn [length] in Lf. rewrite app_length in Lf. destruct fuel as [|k]; [lia|]. cbn [app]. rewrite scan_step. change (92 =? 34) with false. change (92 =? 92) with true. change (117 =? 117) with true. cbv iota.
    rewrite <- app_assoc, (hex4_in _ _ _ H), (proj2 (not_surrogate x) (conj A B)), IH by lia. cbn [add_str]. rewrite encode_rune_utf8, written_plain, utf8s_cons; try assumption; [reflexivity|].
    pose proof (hex4_small _ _ H). lia.
  - cbn [length] in Lf. rewrite app_length in Lf. cbn [length] in Lf. rewrite app_length in Lf. destruct fuel as [|k]; [lia|]. cbn [app]. rewrite scan_step. change (92 =? 34) with false. change (92 =? 92) with true. change (117 =? 117) with true. cbv iota.
    rewrite <- app_assoc, (hex4_in _ _ _ H), (proj2 (surrogate_dec x) (or_introl Hi)). cbn [app]. rewrite <- app_assoc, (pair_in _ _ _ _ Hi H' Lo), IH by lia.
    cbn [add_str]. rewrite encode_rune_utf8, pair_plain, utf8s_cons by assumption. reflexivity.
  - cbn [length] in Lf. rewrite app_length in Lf. destruct fuel as [|k]; [lia|]. cbn [app]. rewrite scan_step. change (92 =? 34) with false. change (92 =? 92) with true. change (117 =? 117) with true. cbv iota.
    rewrite <- app_assoc, (hex4_in _ _ _ H). pose proof (proj2 (surrogate_dec x) Su) as Su'. rewrite Su'.
    destruct (pair_at x (t ++ 34 :: rest)) as [[z r]|] eqn:E.
    + exfalso. destruct (pair_cut _ _ _ _ _ Su' E) as (Hi & y & h' & t' & Et & Eh & Lo). exact (Al y h' t' Hi Et Eh Lo).
    + rewrite IH by lia. cbn [add_str]. rewrite encode_rune_utf8, utf8s_cons. reflexivity.
Qed.
Lemma chars_scan k : forall s x r, texty s -> scan_string k s = Some (x, r) -> exists cs t, s = t ++ 34 :: r /\ chars cs t /\ x = utf8s cs /\ texty r.
Proof.
  induction k as [|k IH]; intros s x r T E; [discriminate|]. destruct s as [|c s]; [discriminate|]. rewrite scan_step in E.
  destruct (N.eqb_spec c 34) as [->|N34].
  { inversion E; subst. exists [], []. split; [reflexivity|]. split; [constructor|]. split; [reflexivity|]. apply texty_tail in T; [exact T|reflexivity]. }
  destruct (N.eqb_spec c 92) as [->|N92].
  - apply texty_tail in T; [|reflexivity]. destruct s as [|e s]; [discriminate|]. destruct (N.eqb_spec e 117) as [->|Ne].
    + apply texty_tail in T; [|reflexivity]. destruct (hex4 s) as [[y r2]|] eqn:Eh; [|discriminate]. apply hex4_out in Eh. destruct Eh as (h & -> & H).
      apply texty_rest in T; [|exact (hex4_ascii _ _ H)].
      destruct (in_range 55296 57343 y) eqn:Su.
      * destruct (pair_at y r2) as [[z r4]|] eqn:Ep.
        -- apply add_some in E. destruct E as (x' & E & ->). destruct (pair_out _ _ _ _ Su Ep) as (Hi & y' & h' & -> & H' & Lo & ->).
           change (92 :: 117 :: h' ++ r4) with ([92; 117] ++ h' ++ r4) in T. apply texty_rest in T; [|repeat constructor; reflexivity]. apply texty_rest in T; [|exact (hex4_ascii _ _ H')].
           destruct (IH _ _ _ T E) as (cs & t & -> & C & -> & Tr). exists (of_pair y y' :: cs), (92 :: 117 :: h ++ 92 :: 117 :: h' ++ t). split; [cbn [app]; rewrite <- !app_assoc; cbn [app]; rewrite <- app_assoc; reflexivity|].
           split; [apply ch_pair; assumption|]. split; [|exact Tr]. rewrite encode_rune_utf8, pair_plain, utf8s_cons by assumption. reflexivity.
        -- apply add_some in E. destruct E as (x' & E & ->). destruct (IH _ _ _ T E) as (cs & t & -> & C & -> & Tr).
           exists (65533 :: cs), (92 :: 117 :: h ++ t). split; [cbn [app]; rewrite <- app_assoc; reflexivity|]. split; [|split; [rewrite encode_rune_utf8, utf8s_cons; reflexivity|exact Tr]].
           apply (ch_half y); [exact H|apply surrogate_dec, Su| |exact C]. intros y' h' t' Hi -> H' Lo.
           cbn [app] in Ep. rewrite <- app_assoc in Ep. rewrite (pair_in _ _ _ _ Hi H' Lo) in Ep. discriminate.
      * apply add_some in E. destruct E as (x' & E & ->). apply not_surrogate in Su. destruct Su as [A B]. destruct (IH _ _ _ T E) as (cs & t & -> & C & -> & Tr).
        exists (y :: cs), (92 :: 117 :: h ++ t). split; [cbn [app]; rewrite <- app_assoc; reflexivity|]. split; [apply ch_hex; assumption|]. split; [|exact Tr].
        rewrite encode_rune_utf8, written_plain, utf8s_cons; try assumption; [reflexivity|]. pose proof (hex4_small _ _ H). lia.
    + destruct (unescape e) as [z|] eqn:U; [|discriminate]. apply short_out in U. destruct (short_in _ _ U) as (_ & _ & Hz & He).
      apply add_some in E. destruct E as (x' & E & ->). apply texty_tail in T; [|exact He]. destruct (IH _ _ _ T E) as (cs & t & -> & C & -> & Tr).
      exists (z :: cs), (92 :: e :: t). split; [reflexivity|]. split; [apply ch_short; assumption|]. split; [rewrite utf8s_cons, (utf8_small z Hz); reflexivity|exact Tr].
  - destruct (N.ltb_spec c 32) as [|L32]; [discriminate|]. destruct (N.ltb_spec c 128) as [L128|L128].
    + apply texty_tail in T; [|exact L128]. apply add_some in E. destruct E as (x' & E & ->). destruct (IH _ _ _ T E) as (cs & t & -> & C & -> & Tr).
      exists (c :: cs), (utf8 c ++ t). rewrite utf8s_cons. rewrite (utf8_small c L128) at 1 3. split; [reflexivity|]. split; [|split; [reflexivity|exact Tr]].
      apply ch_plain; try assumption. left. lia.
    + destruct (texty_char _ T ltac:(discriminate)) as (y & n & D & Sc & Hn & Es & Ts). rewrite D in E. apply add_some in E. destruct E as (x' & E & ->).
      destruct (IH _ _ _ Ts E) as (cs & t & Et & C & -> & Tr). rewrite Et in Es.
      assert (128 <= y) as Ly. { destruct (N.ltb_spec y 128) as [L|]; [|assumption]. rewrite (utf8_small y L) in Es. cbn [app] in Es. injection Es as -> _. lia. }
      exists (y :: cs), (utf8 y ++ t). split; [rewrite <- app_assoc; exact Es|]. split; [apply ch_plain; try assumption; lia|]. split; [|exact Tr].
      rewrite utf8s_cons. f_equal. rewrite Es, Hn. apply firstn_front.
Qed.

(** * Numbers *)
Lemma dig_in c : is_dig c = true <-> digit c.
Proof. unfold is_dig, in_range, digit. rewrite andb_true_iff, !N.leb_le. tauto. Qed.
Lemma digs_in s : forallb is_dig s = true <-> Forall digit s.
Proof. rewrite forallb_forall, Forall_forall. split; intros H x Hx; apply dig_in, H, Hx. Qed.
Definition no_digit (s : bytes) : Prop := match s with [] => True | c :: _ => is_dig c = false end.
Lemma take_in ds : forall rest, Forall digit ds -> no_digit rest -> take_digits (ds ++ rest) = (ds, rest).
Proof.
  induction ds as [|d ds IH]; intros rest F N0.
  - destruct rest as [|c r]; [reflexivity|]. cbn [app take_digits]. cbn in N0. rewrite N0. reflexivity.
  - inversion F as [|? ? D F']; subst. cbn [app take_digits]. rewrite (proj2 (dig_in d) D), IH by assumption. reflexivity.
Qed.
Lemma take_out s : forall ds r, take_digits s = (ds, r) -> s = ds ++ r /\ Forall digit ds.
Proof.
  induction s as [|c s IH]; intros ds r E; cbn [take_digits] in E; [injection E as <- <-; split; [reflexivity|constructor]|].
  destruct (is_dig c) eqn:D; [|injection E as <- <-; split; [reflexivity|constructor]]. destruct (take_digits s) as [a b]. injection E as <- <-.
  destruct (IH a b eq_refl) as [-> F]. split; [reflexivity|]. constructor; [apply dig_in, D|exact F].
Qed.
Lemma expect1_miss a c r : c <> a -> expect [a] (c :: r) = None.
Proof. intros N0. cbn [expect]. destruct (N.eqb_spec a c); [congruence|reflexivity]. Qed.
Lemma expect_one a s : expect [a] (a :: s) = Some s.
Proof. exact (expect_in [a] s). Qed.
Lemma exp_in e rest : exponential e -> stops rest = true -> scan_exp (e ++ rest) = Some (e, rest).
Proof.
  intros [->|(c & sg & ds & -> & He & Hs & Nd & D)] St; [apply scan_tail, St|].
  assert (Nr : no_digit rest). { destruct rest as [|a r]; [exact Logic.I|]. cbn [stops] in St. cbn. destruct (is_dig a); [discriminate|reflexivity]. }
  cbn [app scan_exp]. rewrite <- app_assoc.
  assert ((c =? 101) || (c =? 69) = true) as -> by (cbn [In] in He; apply orb_true_iff; rewrite !N.eqb_eq; lia).
  destruct ds as [|d ds]; [congruence|]. inversion D as [|? ? Dd D']; subst. unfold digit in Dd.
  cbn [In] in Hs. destruct Hs as [<-|[<-|[<-|[]]]].
  - cbn [app]. assert ((d =? 43) || (d =? 45) = false) as -> by (apply orb_false_iff; rewrite !N.eqb_neq; lia).
    change (d :: ds ++ rest) with ((d :: ds) ++ rest). rewrite (take_in (d :: ds) rest D Nr). reflexivity.
  - cbn [app]. change ((43 =? 43) || (43 =? 45)) with true. cbv iota. change (d :: ds ++ rest) with ((d :: ds) ++ rest). rewrite (take_in (d :: ds) rest D Nr). reflexivity.
  - cbn [app]. change ((45 =? 43) || (45 =? 45)) with true. cbv iota. change (d :: ds ++ rest) with ((d :: ds) ++ rest). rewrite (take_in (d :: ds) rest D Nr). reflexivity.
Qed.
Lemma exp_out s e r : scan_exp s = Some (e, r) -> s = e ++ r /\ exponential e.
Proof.
  destruct s as [|c s]; cbn [scan_exp]; intros E; [injection E as <- <-; split; [reflexivity|left; reflexivity]|].
  destruct ((c =? 101) || (c =? 69)) eqn:Ec; [|injection E as <- <-; split; [reflexivity|left; reflexivity]].
  apply orb_true_iff in Ec. rewrite !N.eqb_eq in Ec.
  assert (X : forall sg s1, In sg [[]; [43]; [45]] -> s = sg ++ s1 -> (let (ds, r0) := take_digits s1 in match ds with [] => None | _ => Some (c :: sg ++ ds, r0) end) = Some (e, r) -> c :: s = e ++ r /\ exponential e).
  { intros sg s1 Hs -> Y. destruct (take_digits s1) as [ds r0] eqn:Et. destruct (take_out _ _ _ Et) as [-> F]. destruct ds as [|d ds]; [discriminate|].
    injection Y as <- <-. split; [cbn [app]; rewrite <- app_assoc; reflexivity|]. right. exists c, sg, (d :: ds). split; [reflexivity|]. split; [cbn [In]; lia|]. split; [exact Hs|]. split; [discriminate|exact F]. }
  destruct s as [|d s]; [discriminate|]. destruct ((d =? 43) || (d =? 45)) eqn:Ed.
  - apply orb_true_iff in Ed. rewrite !N.eqb_eq in Ed. apply (X [d] s); [|reflexivity|exact E]. cbn [In]. destruct Ed as [->| ->]; tauto.
  - apply (X [] (d :: s)); [left; reflexivity|reflexivity|exact E].
Qed.
Lemma exp_mark e rest : exponential e -> stops rest = true -> no_digit (e ++ rest) /\ match e ++ rest with c :: _ => c <> 46 | [] => True end.
Proof.
  intros [->|(c & sg & ds & -> & He & _)] St.
  - destruct rest as [|a r]; [split; exact Logic.I|]. cbn [stops] in St. cbn. apply negb_true_iff in St. rewrite !orb_false_iff in St. destruct St as [[[-> A] _] _].
    split; [reflexivity|]. apply N.eqb_neq, A.
  - cbn [app no_digit]. cbn [In] in He. destruct He as [<-|[<-|[]]]; split; (reflexivity || discriminate).
Qed.
Lemma frac_in f rest : fraction f -> no_digit rest -> match rest with c :: _ => c <> 46 | [] => True end -> scan_frac (f ++ rest) = Some (f, rest).
Proof.
  intros [->|(ds & -> & Nd & D)] Nr N46; rewrite scan_frac_if.
  - cbn [app]. destruct rest as [|c r]; [reflexivity|]. rewrite expect1_miss by exact N46. reflexivity.
  - cbn [app]. change (expect [46] (46 :: ds ++ rest)) with (Some (ds ++ rest)). cbv iota. rewrite (take_in ds rest D Nr). destruct ds; [congruence|reflexivity].
Qed.
Lemma frac_out s f r : scan_frac s = Some (f, r) -> s = f ++ r /\ fraction f.
Proof.
  rewrite scan_frac_if. destruct (expect [46] s) as [s1|] eqn:E; intros H.
  - apply expect_out in E. subst s. destruct (take_digits s1) as [ds r0] eqn:Et. destruct (take_out _ _ _ Et) as [-> F]. destruct ds as [|d ds]; [discriminate|].
    injection H as <- <-. split; [reflexivity|]. right. exists (d :: ds). split; [reflexivity|]. split; [discriminate|exact F].
  - injection H as <- <-. split; [reflexivity|left; reflexivity].
Qed.
Lemma frac_no_digit f s : fraction f -> no_digit s -> no_digit (f ++ s).
Proof. intros [->|(ds & -> & _)] N0; [exact N0|reflexivity]. Qed.
Lemma number_in l rest : number l -> stops rest = true -> scan_number (l ++ rest) = Some (l, rest).
Proof.
  intros (sg & i & f & e & -> & Hs & Hi & Hf & He) St. rewrite scan_number_if, <- !app_assoc.
  assert (A : match expect [45] (sg ++ i ++ f ++ e ++ rest) with Some r => ([45], r) | None => ([], sg ++ i ++ f ++ e ++ rest) end = (sg, i ++ f ++ e ++ rest)).
  { cbn [In] in Hs. destruct Hs as [<-|[<-|[]]]; [|reflexivity]. cbn [app].
    destruct Hi as [->|(c & r & -> & Dc & _)]; [reflexivity|]. cbn [app]. unfold digit in Dc. rewrite expect1_miss by lia. reflexivity. }
  rewrite A. destruct (exp_mark e rest He St) as [Nd N46].
  assert (B : match expect [48] (i ++ f ++ e ++ rest) with Some r => Some ([48], r) | None => let (ds, r) := take_digits (i ++ f ++ e ++ rest) in match ds with [] => None | _ => Some (ds, r) end end = Some (i, f ++ e ++ rest)).
  { destruct Hi as [->|(c & r & -> & Dc & Nz & Dr)]; [reflexivity|]. cbn [app]. rewrite expect1_miss by congruence.
    change (c :: r ++ f ++ e ++ rest) with ((c :: r) ++ f ++ e ++ rest). rewrite take_in; [reflexivity|constructor; assumption|]. apply frac_no_digit; assumption. }
  rewrite B. rewrite (frac_in f (e ++ rest) Hf Nd N46), (exp_in e rest He St). reflexivity.
Qed.
Lemma number_out s l r : scan_number s = Some (l, r) -> s = l ++ r /\ number l.
Proof.
  rewrite scan_number_if.
  assert (A : exists sg s1, match expect [45] s with Some r => ([45], r) | None => ([], s) end = (sg, s1) /\ s = sg ++ s1 /\ In sg [[]; [45]]).
  { destruct (expect [45] s) as [s1|] eqn:E; [apply expect_out in E; exists [45], s1|exists [], s]; (split; [reflexivity|]; split; [assumption || reflexivity|cbn [In]; tauto]). }
  destruct A as (sg & s1 & -> & -> & Hs).
  assert (B : match (match expect [48] s1 with Some r => Some ([48], r) | None => let (ds, r) := take_digits s1 in match ds with [] => None | _ => Some (ds, r) end end) with
    | None => True | Some (i, s2) => s1 = i ++ s2 /\ whole i end).
  { destruct (expect [48] s1) as [s2|] eqn:E; [apply expect_out in E; split; [exact E|left; reflexivity]|].
    destruct (take_digits s1) as [ds s2] eqn:Et. destruct (take_out _ _ _ Et) as [-> F]. destruct ds as [|d ds]; [exact Logic.I|]. split; [reflexivity|]. right.
    inversion F; subst. exists d, ds. repeat split; try assumption; try apply H1. intros ->. discriminate E. }
  destruct (match expect [48] s1 with Some r => Some ([48], r) | None => let (ds, r) := take_digits s1 in match ds with [] => None | _ => Some (ds, r) end end) as [[i s2]|]; [|discriminate].
  destruct B as [-> Hi]. destruct (scan_frac s2) as [[f s3]|] eqn:Ef; [|discriminate]. destruct (frac_out _ _ _ Ef) as [-> Hf].
  destruct (scan_exp s3) as [[e s4]|] eqn:Ee; [|discriminate]. destruct (exp_out _ _ _ Ee) as [-> He]. intros H. injection H as <- <-.
  split; [rewrite <- !app_assoc; reflexivity|]. exists sg, i, f, e. repeat split; assumption.
Qed.

(** * Values *)
Scheme value_mut := Induction for value Sort Prop
  with elements_mut := Induction for elements Sort Prop
  with members_mut := Induction for members Sort Prop.
Combined Scheme json_mut from value_mut, elements_mut, members_mut.

Lemma space_in c : is_space c = true <-> In c [32; 9; 13; 10].
Proof. unfold is_space. rewrite !orb_true_iff, !N.eqb_eq. cbn [In]. split; [intros [[[->| ->]| ->]| ->]; tauto|]. intros [<-|[<-|[<-|[<-|[]]]]]; tauto. Qed.
Lemma skip_blank w s : blank w -> skip_space (w ++ s) = skip_space s.
Proof. induction 1 as [|c w H F IH]; [reflexivity|]. cbn [app skip_space]. rewrite (proj2 (space_in c) H). exact IH. Qed.
Lemma skip_out s : exists w, s = w ++ skip_space s /\ blank w /\ match skip_space s with c :: _ => is_space c = false | [] => True end.
Proof.
  induction s as [|c s (w & E & B & F)]; [exists []; repeat split; constructor|]. cbn [skip_space]. destruct (is_space c) eqn:Ec.
  - exists (c :: w). split; [cbn [app]; f_equal; exact E|]. split; [constructor; [apply space_in, Ec|exact B]|exact F].
  - exists []. repeat split; [constructor|exact Ec].
Qed.
Lemma blank_ascii w : blank w -> Forall (fun c => c < 128) w.
Proof. intros B. eapply Forall_impl; [|exact B]. cbn [In]. lia. Qed.
Lemma blank_stops w s : blank w -> stops s = true -> stops (w ++ s) = true.
Proof. intros B S. destruct B as [|c w H B]; [exact S|]. cbn [app stops]. cbn [In] in H. destruct H as [<-|[<-|[<-|[<-|[]]]]]; reflexivity. Qed.

(** What a value can begin with. *)
Definition starts (c : N) : Prop := In c [110; 116; 102; 34; 91; 123; 45] \/ digit c.
Lemma starts_not c : starts c -> is_space c = false /\ c <> 93 /\ c <> 125 /\ c <> 44.
Proof.
  unfold starts, digit. cbn [In]. intros H. repeat split; try lia. destruct (is_space c) eqn:E; [|reflexivity]. apply space_in in E. cbn [In] in E. lia.
Qed.
Lemma value_starts v t : value v t -> exists c r, t = c :: r /\ starts c.
Proof.
  intros H. destruct H as [ | | |l N0| | | | | ]; try (eexists _, _; split; [reflexivity|left; cbn [In]; tauto]).
  destruct N0 as (sg & i & f & e & -> & Hs & Hi & _). cbn [In] in Hs. destruct Hs as [<-|[<-|[]]]; [|eexists _, _; split; [reflexivity|left; cbn [In]; tauto]].
  destruct Hi as [->|(c & r & -> & D & _)]; eexists _, _; (split; [reflexivity|right]); [split; discriminate|exact D].
Qed.
Lemma skip_value_in v t s : value v t -> skip_space (t ++ s) = t ++ s.
Proof. intros H. destruct (value_starts v t H) as (c & r & -> & S). cbn [app]. apply skip_none, starts_not, S. Qed.
Lemma mark_in w a s : blank w -> is_space a = false -> expect [a] (skip_space (w ++ a :: s)) = Some s.
Proof. intros B A. rewrite skip_blank by exact B. rewrite skip_none by exact A. cbn [expect]. rewrite N.eqb_refl. destruct s; reflexivity. Qed.
Lemma mark_miss w a b s : blank w -> is_space b = false -> b <> a -> expect [a] (skip_space (w ++ b :: s)) = None.
Proof. intros B A N0. rewrite skip_blank by exact B. rewrite skip_none by exact A. apply expect1_miss, N0. Qed.

Lemma json_in :
  (forall v t, value v t -> forall fuel rest, (length t <= fuel)%nat -> stops rest = true -> scan_value fuel (t ++ rest) = Some (v, rest)) /\
  (forall vs t, elements vs t -> (forall rest, expect [93] (skip_space (t ++ rest)) = None) /\
     forall fuel rest, (length t < fuel)%nat -> scan_elements fuel (skip_space (t ++ 93 :: rest)) = Some (vs, rest)) /\
  (forall ms t, members ms t -> (forall rest, expect [125] (skip_space (t ++ rest)) = None) /\
     forall fuel rest, (length t <= fuel)%nat -> scan_members fuel (skip_space (t ++ 125 :: rest)) = Some (ms, rest)).
Proof.
  apply json_mut.
  - intros fuel rest L _. destruct fuel; [cbn in L; lia|]. reflexivity.
  - intros fuel rest L _. destruct fuel; [cbn in L; lia|]. reflexivity.
  - intros fuel rest L _. destruct fuel; [cbn in L; lia|]. reflexivity.
  - intros l Nl fuel rest L St. destruct (value_starts _ _ (v_num l Nl)) as (c & r & E & _).
    assert (Hc : c = 45 \/ digit c).
    { destruct Nl as (sg & i & f & e & El & Hs & Hi & _). rewrite El in E. cbn [In] in Hs. destruct Hs as [<-|[<-|[]]]; [|injection E as <- _; left; reflexivity].
      right. destruct Hi as [->|(d & q & -> & D & _)]; injection E as <- _; [split; discriminate|exact D]. }
    destruct fuel; [rewrite E in L; cbn in L; lia|]. pose proof (number_in l rest Nl St) as Sn. rewrite E in Sn |- *. cbn [app] in *. rewrite value_step.
    unfold digit in Hc. repeat match goal with |- context [?a =? ?b] => rewrite (proj2 (N.eqb_neq a b)) by lia end. rewrite Sn. reflexivity.
  - intros rs t C fuel rest L _. cbn [app] in *. destruct fuel; [cbn in L; lia|]. rewrite value_step. change (34 =? 123) with false. change (34 =? 91) with false. change (34 =? 34) with true. cbv iota.
    rewrite <- app_assoc. cbn [app]. rewrite (scan_chars _ _ C); [reflexivity|]. rewrite app_length. cbn [length]. lia.
  - intros w B fuel rest L _. cbn [app] in *. destruct fuel; [cbn in L; lia|]. rewrite value_step. change (91 =? 123) with false. change (91 =? 91) with true. cbv iota.
    rewrite <- app_assoc. cbn [app]. rewrite mark_in by (assumption || reflexivity). reflexivity.
  - intros vs t E [IH1 IH2] fuel rest L _. cbn [app] in *. destruct fuel; [cbn in L; lia|]. rewrite value_step. change (91 =? 123) with false. change (91 =? 91) with true. cbv iota.
    rewrite <- app_assoc, IH1. cbn [app]. rewrite IH2; [reflexivity|]. cbn [length] in L. rewrite app_length in L. cbn [length] in L. lia.
  - intros w B fuel rest L _. cbn [app] in *. destruct fuel; [cbn in L; lia|]. rewrite value_step. change (123 =? 123) with true. cbv iota.
    rewrite <- app_assoc. cbn [app]. rewrite mark_in by (assumption || reflexivity). reflexivity.
  - intros ms t E [IH1 IH2] fuel rest L _. cbn [app] in *. destruct fuel; [cbn in L; lia|]. rewrite value_step. change (123 =? 123) with true. cbv iota.
    rewrite <- app_assoc, IH1. cbn [app]. rewrite IH2; [reflexivity|]. cbn [length] in L. rewrite app_length in L. cbn [length] in L. lia.
  - intros v w t w' B V IH B'. destruct (value_starts v t V) as (c & r & Et & Sc). split.
    + intros rest. rewrite <- !app_assoc, Et. cbn [app]. apply mark_miss; [exact B|apply starts_not, Sc|apply starts_not, Sc].
    + intros fuel rest L. rewrite !app_length in L. destruct fuel as [|k]; [lia|]. rewrite <- !app_assoc, skip_blank, (skip_value_in v t _ V) by exact B.
      rewrite elements_step, IH; [|lia|apply blank_stops; [exact B'|reflexivity]].
      rewrite mark_miss by (try assumption; try reflexivity; discriminate). rewrite mark_in by (assumption || reflexivity). reflexivity.
  - intros v w t w' vs s B V IH B' E [IHa IHb]. destruct (value_starts v t V) as (c & r & Et & Sc). split.
    + intros rest. rewrite <- !app_assoc, Et. cbn [app]. apply mark_miss; [exact B|apply starts_not, Sc|apply starts_not, Sc].
    + intros fuel rest L. rewrite !app_length in L. cbn [length app] in L. destruct fuel as [|k]; [lia|]. rewrite <- !app_assoc, skip_blank, (skip_value_in v t _ V) by exact B.
      cbn [app]. rewrite elements_step, IH; [|lia|apply blank_stops; [exact B'|reflexivity]].
      rewrite mark_in by (assumption || reflexivity). rewrite IHb by lia. reflexivity.
  - intros ks kt w w1 w2 v t w' B C B1 B2 V IH B'. split.
    + intros rest. rewrite <- !app_assoc. cbn [app]. apply mark_miss; [exact B|reflexivity|discriminate].
    + intros fuel rest L. rewrite !app_length in L. cbn [length app] in L. destruct fuel as [|k]; [lia|]. rewrite <- !app_assoc, skip_blank by exact B. cbn [app].
      rewrite skip_none by reflexivity. rewrite members_step, expect_one.
      rewrite (scan_chars _ _ C) by (rewrite app_length; cbn [length]; lia). rewrite mark_in by (assumption || reflexivity).
      rewrite skip_blank, (skip_value_in v t _ V) by exact B2. rewrite IH; [|lia|apply blank_stops; [exact B'|reflexivity]].
      rewrite mark_miss by (try assumption; try reflexivity; discriminate). rewrite mark_in by (assumption || reflexivity). reflexivity.
  - intros ks kt w w1 w2 v t w' ms s B C B1 B2 V IH B' M [IHa IHb]. split.
    + intros rest. rewrite <- !app_assoc. cbn [app]. apply mark_miss; [exact B|reflexivity|discriminate].
    + intros fuel rest L. rewrite !app_length in L. cbn [length app] in L. destruct fuel as [|k]; [lia|]. rewrite <- !app_assoc, skip_blank by exact B. cbn [app].
      rewrite skip_none by reflexivity. rewrite members_step, expect_one.
      rewrite (scan_chars _ _ C) by (rewrite app_length; cbn [length]; lia). rewrite mark_in by (assumption || reflexivity).
      rewrite skip_blank, (skip_value_in v t _ V) by exact B2. rewrite IH; [|lia|apply blank_stops; [exact B'|reflexivity]].
      rewrite mark_in by (assumption || reflexivity). rewrite IHb by lia. reflexivity.
Qed.

Lemma texty_skip s : texty s -> texty (skip_space s).
Proof. intros T. destruct (skip_out s) as (w & E & B & _). rewrite E in T. exact (texty_rest w _ T (blank_ascii w B)). Qed.
Lemma mark_out a s r : expect [a] (skip_space s) = Some r -> exists w, s = w ++ a :: r /\ blank w.
Proof. intros E. apply expect_out in E. destruct (skip_out s) as (w & Es & B & _). rewrite E in Es. exists w. split; [exact Es|exact B]. Qed.
Lemma texty_mark a w r : texty (w ++ a :: r) -> blank w -> a < 128 -> texty r.
Proof. intros T B L. apply (texty_tail a); [|exact L]. exact (texty_rest w _ T (blank_ascii w B)). Qed.
Lemma texty_digits l : number l -> Forall (fun c => c < 128) l.
Proof.
  intros (sg & i & f & e & -> & Hs & Hi & Hf & He). assert (D : forall s, Forall digit s -> Forall (fun c => c < 128) s) by (intros s F; eapply Forall_impl; [|exact F]; unfold digit; intros; lia).
  repeat (apply Forall_app; split).
  - cbn [In] in Hs. destruct Hs as [<-|[<-|[]]]; repeat constructor.
  - destruct Hi as [->|(c & r & -> & Dc & _ & F)]; [repeat constructor|]. apply D. constructor; assumption.
  - destruct Hf as [->|(r & -> & _ & F)]; [constructor|]. constructor; [reflexivity|apply D, F].
  - destruct He as [->|(c & g & r & -> & Hc & Hg & _ & F)]; [constructor|]. constructor; [cbn [In] in Hc; lia|]. apply Forall_app. split; [|apply D, F].
    cbn [In] in Hg. destruct Hg as [<-|[<-|[<-|[]]]]; repeat constructor.
Qed.
Lemma json_out k :
  (forall s v r, texty s -> scan_value k s = Some (v, r) -> exists t, s = t ++ r /\ value v t /\ texty r) /\
  (forall s vs r, texty s -> scan_elements k s = Some (vs, r) -> exists t, s = t ++ 93 :: r /\ elements vs t /\ texty r) /\
  (forall s ms r, texty s -> scan_members k s = Some (ms, r) -> exists t, s = t ++ 125 :: r /\ members ms t /\ texty r).
Proof.
  induction k as [|k (IHv & IHe & IHm)]; [repeat split; intros; discriminate|]. repeat split.
  - intros s v r T E. destruct s as [|c s]; [discriminate|]. rewrite value_step in E.
    destruct (N.eqb_spec c 123) as [->|N1].
    { apply texty_tail in T; [|reflexivity]. destruct (expect [125] (skip_space s)) as [r'|] eqn:E1.
      - injection E as <- <-. destruct (mark_out _ _ _ E1) as (w & -> & B). exists ([123] ++ w ++ [125]). split; [cbn [app]; rewrite <- app_assoc; reflexivity|]. split; [apply v_obj0, B|]. exact (texty_mark _ _ _ T B eq_refl).
      - destruct (scan_members k (skip_space s)) as [[ms r2]|] eqn:E2; [|discriminate]. injection E as <- <-. destruct (IHm _ _ _ (texty_skip s T) E2) as (t & Et & M & Tr).
        destruct (skip_out s) as (w & Es & B & _). rewrite Et in Es. exists ([123] ++ (w ++ t) ++ [125]). split; [rewrite Es; cbn [app]; rewrite <- !app_assoc; reflexivity|]. split; [|exact Tr].
        apply v_obj. destruct M.
        + rewrite app_assoc. apply m_one; try assumption. apply Forall_app. split; assumption.
        + rewrite app_assoc. apply m_more; try assumption. apply Forall_app. split; assumption. }
    destruct (N.eqb_spec c 91) as [->|N2].
    { apply texty_tail in T; [|reflexivity]. destruct (expect [93] (skip_space s)) as [r'|] eqn:E1.
      - injection E as <- <-. destruct (mark_out _ _ _ E1) as (w & -> & B). exists ([91] ++ w ++ [93]). split; [cbn [app]; rewrite <- app_assoc; reflexivity|]. split; [apply v_arr0, B|]. exact (texty_mark _ _ _ T B eq_refl).
      - destruct (scan_elements k (skip_space s)) as [[ms r2]|] eqn:E2; [|discriminate]. injection E as <- <-. destruct (IHe _ _ _ (texty_skip s T) E2) as (t & Et & M & Tr).
        destruct (skip_out s) as (w & Es & B & _). rewrite Et in Es. exists ([91] ++ (w ++ t) ++ [93]). split; [rewrite Es; cbn [app]; rewrite <- !app_assoc; reflexivity|]. split; [|exact Tr].
        apply v_arr. destruct M.
        + rewrite app_assoc. apply e_one; try assumption. apply Forall_app. split; assumption.
        + rewrite app_assoc. apply e_more; try assumption. apply Forall_app. split; assumption. }
    destruct (N.eqb_spec c 34) as [->|N3].
    { apply texty_tail in T; [|reflexivity]. destruct (scan_string (length s) s) as [[x r']|] eqn:E1; [|discriminate]. injection E as <- <-.
      destruct (chars_scan _ _ _ _ T E1) as (cs & t & -> & C & -> & Tr). exists ([34] ++ t ++ [34]). split; [cbn [app]; rewrite <- app_assoc; reflexivity|]. split; [apply v_str, C|exact Tr]. }
    destruct (N.eqb_spec c 116) as [->|N4].
    { destruct (expect [114; 117; 101] s) as [r'|] eqn:E1; [|discriminate]. injection E as <- <-. apply expect_out in E1. subst s. exists [116; 114; 117; 101]. split; [reflexivity|]. split; [constructor|].
      exact (texty_rest [116; 114; 117; 101] _ T ltac:(repeat constructor)). }
    destruct (N.eqb_spec c 102) as [->|N5].
    { destruct (expect [97; 108; 115; 101] s) as [r'|] eqn:E1; [|discriminate]. injection E as <- <-. apply expect_out in E1. subst s. exists [102; 97; 108; 115; 101]. split; [reflexivity|]. split; [constructor|].
      exact (texty_rest [102; 97; 108; 115; 101] _ T ltac:(repeat constructor)). }
    destruct (N.eqb_spec c 110) as [->|N6].
    { destruct (expect [117; 108; 108] s) as [r'|] eqn:E1; [|discriminate]. injection E as <- <-. apply expect_out in E1. subst s. exists [110; 117; 108; 108]. split; [reflexivity|]. split; [constructor|].
      exact (texty_rest [110; 117; 108; 108] _ T ltac:(repeat constructor)). }
    destruct (scan_number (c :: s)) as [[l r']|] eqn:E1; [|discriminate]. injection E as <- <-. destruct (number_out _ _ _ E1) as [Es Nl]. exists l. split; [exact Es|]. split; [constructor; exact Nl|].
    rewrite Es in T. exact (texty_rest l _ T (texty_digits l Nl)).
  - intros s vs r T E. rewrite elements_step in E. destruct (scan_value k s) as [[v r3]|] eqn:E1; [|discriminate]. destruct (IHv _ _ _ T E1) as (t & -> & V & Tr).
    destruct (expect [44] (skip_space r3)) as [r4|] eqn:E2.
    + destruct (scan_elements k (skip_space r4)) as [[vs' r5]|] eqn:E3; [|discriminate]. injection E as <- <-. destruct (mark_out _ _ _ E2) as (w' & -> & B'). apply texty_mark in Tr; [|exact B'|reflexivity].
      destruct (IHe _ _ _ (texty_skip _ Tr) E3) as (t2 & Et & M & Tr2). destruct (skip_out r4) as (w & Es & B & _). rewrite Et in Es.
      exists ([] ++ t ++ w' ++ [44] ++ w ++ t2). split; [rewrite Es; cbn [app]; rewrite <- !app_assoc; cbn [app]; rewrite <- app_assoc; reflexivity|]. split; [|exact Tr2].
      apply e_more; try assumption; [constructor|]. destruct M.
      * rewrite app_assoc. apply e_one; try assumption. apply Forall_app. split; assumption.
      * rewrite app_assoc. apply e_more; try assumption. apply Forall_app. split; assumption.
    + destruct (expect [93] (skip_space r3)) as [r4|] eqn:E3; [|discriminate]. injection E as <- <-. destruct (mark_out _ _ _ E3) as (w' & -> & B'). apply texty_mark in Tr; [|exact B'|reflexivity].
      exists ([] ++ t ++ w'). split; [cbn [app]; rewrite <- app_assoc; reflexivity|]. split; [|exact Tr]. apply e_one; try assumption. constructor.
  - intros s ms r T E. rewrite members_step in E. destruct (expect [34] s) as [s1|] eqn:E0; [|discriminate]. apply expect_out in E0. subst s. cbn [app] in T. apply texty_tail in T; [|reflexivity].
    destruct (scan_string (length s1) s1) as [[key r1]|] eqn:Ek; [|discriminate]. destruct (chars_scan _ _ _ _ T Ek) as (ks & kt & -> & C & -> & T1).
    destruct (expect [58] (skip_space r1)) as [r2|] eqn:E58; [|discriminate]. destruct (mark_out _ _ _ E58) as (w1 & -> & B1). apply texty_mark in T1; [|exact B1|reflexivity].
    destruct (scan_value k (skip_space r2)) as [[v r3]|] eqn:E1; [|discriminate]. destruct (IHv _ _ _ (texty_skip _ T1) E1) as (t & Et & V & Tr).
    destruct (skip_out r2) as (w2 & Es & B2 & _). rewrite Et in Es. subst r2. clear Et.
    destruct (expect [44] (skip_space r3)) as [r4|] eqn:E2.
    + destruct (scan_members k (skip_space r4)) as [[ms' r5]|] eqn:E3; [|discriminate]. injection E as <- <-. destruct (mark_out _ _ _ E2) as (w' & -> & B'). apply texty_mark in Tr; [|exact B'|reflexivity].
      destruct (IHm _ _ _ (texty_skip _ Tr) E3) as (t2 & Et & M & Tr2). destruct (skip_out r4) as (w & Es & B & _). rewrite Et in Es.
      exists ([] ++ [34] ++ kt ++ [34] ++ w1 ++ [58] ++ w2 ++ t ++ w' ++ [44] ++ w ++ t2). split; [rewrite Es; repeat (cbn [app]; rewrite <- ?app_assoc); reflexivity|]. split; [|exact Tr2].
      apply m_more; try assumption; [constructor|]. destruct M.
      * rewrite app_assoc. apply m_one; try assumption. apply Forall_app. split; assumption.
      * rewrite app_assoc. apply m_more; try assumption. apply Forall_app. split; assumption.
    + destruct (expect [125] (skip_space r3)) as [r4|] eqn:E3; [|discriminate]. injection E as <- <-. destruct (mark_out _ _ _ E3) as (w' & -> & B'). apply texty_mark in Tr; [|exact B'|reflexivity].
      exists ([] ++ [34] ++ kt ++ [34] ++ w1 ++ [58] ++ w2 ++ t ++ w'). split; [repeat (cbn [app]; rewrite <- ?app_assoc); reflexivity|]. split; [|exact Tr]. apply m_one; try assumption. constructor.
Qed.
Lemma blank_all s : blank s <-> skip_space s = [].
Proof.
  split; intros H; [rewrite <- (app_nil_r s), (skip_blank s [] H); reflexivity|]. destruct (skip_out s) as (w & E & B & _). rewrite H, app_nil_r in E. subst. exact B.
Qed.
Section JvalInd.
  Variable P : jval -> Prop.
  Hypotheses (A : P JNull) (B : forall b, P (JBool b)) (C : forall l, P (JNum l)) (D : forall s, P (JStr s))
    (E : forall vs, Forall P vs -> P (JArr vs)) (F : forall ms, Forall (fun m => P (snd m)) ms -> P (JObj ms)).
  Fixpoint jval_all (v : jval) : P v :=
    match v with
    | JNull => A | JBool b => B b | JNum l => C l | JStr s => D s
    | JArr vs => E vs ((fix go vs := match vs return Forall P vs with [] => Forall_nil _ | v :: r => Forall_cons v (jval_all v) (go r) end) vs)
    | JObj ms => F ms ((fix go ms := match ms return Forall (fun m => P (snd m)) ms with [] => Forall_nil _ | m :: r => Forall_cons m (jval_all (snd m)) (go r) end) ms)
    end.
End JvalInd.
Lemma max_le {A} (f : A -> N) l n : fold_right N.max 0 (map f l) <= n <-> Forall (fun x => f x <= n) l.
Proof.
  induction l as [|x l IH]; cbn [map fold_right]; [split; [constructor|intros _; apply N.le_0_l]|]. split.
  - intros L. constructor; [lia|]. apply IH. lia.
  - intros F. inversion F; subst. apply N.max_lub; [assumption|]. apply IH. assumption.
Qed.
Lemma nested_depth v : forall n, nested n v <-> jdepth v <= N.of_nat n.
Proof.
  induction v as [|b|l|s|vs IH|ms IH] using jval_all; intros n; try (split; [intros _; apply N.le_0_l|constructor]).
  - cbn [jdepth]. split.
    + intros H. inversion H as [| | | |? ? F|]; subst. rewrite Nnat.Nat2N.inj_succ. enough (fold_right N.max 0 (map jdepth vs) <= N.of_nat n0) by lia. apply max_le.
      rewrite Forall_forall in *. intros x I. apply IH, F; exact I.
    + destruct n as [|n]; [cbn; lia|]. rewrite Nnat.Nat2N.inj_succ. intros L. constructor. assert (L' : fold_right N.max 0 (map jdepth vs) <= N.of_nat n) by lia. apply max_le in L'.
      rewrite Forall_forall in *. intros x I. apply IH, L'; exact I.
  - cbn [jdepth]. split.
    + intros H. inversion H as [| | | | |? ? F]; subst. rewrite Nnat.Nat2N.inj_succ. enough (fold_right N.max 0 (map (fun m => jdepth (snd m)) ms) <= N.of_nat n0) by lia. apply max_le.
      rewrite Forall_forall in *. intros x I. apply IH, F; exact I.
    + destruct n as [|n]; [cbn; lia|]. rewrite Nnat.Nat2N.inj_succ. intros L. constructor. assert (L' : fold_right N.max 0 (map (fun m => jdepth (snd m)) ms) <= N.of_nat n) by lia. apply max_le in L'.
      rewrite Forall_forall in *. intros x I. apply IH, L'; exact I.
Qed.
Lemma shallow_spec v : too_deep v = false <-> shallow v.
Proof. unfold too_deep, shallow. rewrite N.ltb_ge, nested_depth, N2Nat.id. reflexivity. Qed.
Theorem parse_in d v : json_text v d -> shallow v -> json_parse d = Some v.
Proof.
  intros (w & t & w' & -> & B & V & B') Sh. unfold json_parse. rewrite skip_blank, (skip_value_in v t _ V) by exact B.
  rewrite (proj1 json_in v t V); [rewrite (proj1 (blank_all w') B'), (proj2 (shallow_spec v) Sh); reflexivity| |].
  - rewrite !app_length. lia.
  - rewrite <- (app_nil_r w'). apply blank_stops; [exact B'|reflexivity].
Qed.
Theorem parse_out d v : texty d -> json_parse d = Some v -> json_text v d /\ shallow v.
Proof.
  intros T. unfold json_parse. destruct (scan_value (2 * length d + 2) (skip_space d)) as [[v' r]|] eqn:E; [|discriminate].
  destruct (proj1 (json_out _) _ _ _ (texty_skip d T) E) as (t & Et & V & _). destruct (skip_space r) eqn:Er; [|discriminate]. destruct (too_deep v') eqn:Sh; [discriminate|]. intros X. injection X as <-. split; [|apply shallow_spec, Sh].
  destruct (skip_out d) as (w & Es & B & _). rewrite Et in Es. exists w, t, r. split; [exact Es|]. split; [exact B|]. split; [exact V|]. apply blank_all, Er.
Qed.
