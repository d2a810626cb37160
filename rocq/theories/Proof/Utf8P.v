(** Decoding UTF-8. *)
From Verif Require Import Model.Base Model.Utf8 Spec.Text Proof.Tactics Proof.VarintP.
Local Open Scope N_scope.

Lemma land_ones_mod x n : N.land x (N.ones n) = x mod 2 ^ n.
Proof. apply N.land_ones. Qed.
Lemma land63 x : N.land x 63 = x mod 64.
Proof. exact (land_ones_mod x 6). Qed.
Lemma land31 x : N.land x 31 = x mod 32.
Proof. exact (land_ones_mod x 5). Qed.
Lemma land15 x : N.land x 15 = x mod 16.
Proof. exact (land_ones_mod x 4). Qed.
Lemma land7 x : N.land x 7 = x mod 8.
Proof. exact (land_ones_mod x 3). Qed.
Lemma lor_add a b s : a < 2 ^ s -> N.lor (N.shiftl b s) a = b * 2 ^ s + a.
Proof. intros H. rewrite N.lor_comm, lor_shiftl_add by exact H. lia. Qed.

Lemma dec2 b0 b1 : N.lor (N.shiftl (N.land b0 31) 6) (N.land b1 63) = (b0 mod 32) * 64 + b1 mod 64.
Proof. rewrite land31, land63, lor_add; [reflexivity|]. change (2 ^ 6) with 64. lia. Qed.
Lemma dec3 b0 b1 b2 :
  N.lor (N.lor (N.shiftl (N.land b0 15) 12) (N.shiftl (N.land b1 63) 6)) (N.land b2 63) =
  (b0 mod 16) * 4096 + (b1 mod 64) * 64 + b2 mod 64.
Proof.
  rewrite land15, !land63.
  replace (N.shiftl (b0 mod 16) 12) with (N.shiftl (N.shiftl (b0 mod 16) 6) 6) by (rewrite N.shiftl_shiftl; reflexivity).
  rewrite <- N.shiftl_lor. rewrite (lor_add (b1 mod 64)) by (change (2 ^ 6) with 64; lia).
  rewrite lor_add by (change (2 ^ 6) with 64; lia). change (2 ^ 6) with 64. lia.
Qed.
Lemma dec4 b0 b1 b2 b3 :
  N.lor (N.lor (N.lor (N.shiftl (N.land b0 7) 18) (N.shiftl (N.land b1 63) 12)) (N.shiftl (N.land b2 63) 6)) (N.land b3 63) =
  (b0 mod 8) * 262144 + (b1 mod 64) * 4096 + (b2 mod 64) * 64 + b3 mod 64.
Proof.
  rewrite land7, !land63.
  replace (N.shiftl (b0 mod 8) 18) with (N.shiftl (N.shiftl (N.shiftl (b0 mod 8) 6) 6) 6) by (rewrite !N.shiftl_shiftl; reflexivity).
  replace (N.shiftl (b1 mod 64) 12) with (N.shiftl (N.shiftl (b1 mod 64) 6) 6) by (rewrite !N.shiftl_shiftl; reflexivity).
  rewrite <- !N.shiftl_lor. rewrite (lor_add (b1 mod 64)) by (change (2 ^ 6) with 64; lia).
  rewrite (lor_add (b2 mod 64)) by (change (2 ^ 6) with 64; lia).
  rewrite lor_add by (change (2 ^ 6) with 64; lia). change (2 ^ 6) with 64. lia.
Qed.

Lemma digit x y : y < 64 -> (x * 64 + y) / 64 = x /\ (x * 64 + y) mod 64 = y.
Proof. intros H. split; lia. Qed.
Lemma digits4 x0 x1 x2 x3 : x1 < 64 -> x2 < 64 -> x3 < 64 ->
  let v := x0 * 262144 + x1 * 4096 + x2 * 64 + x3 in
  v / 262144 = x0 /\ v / 4096 mod 64 = x1 /\ v / 64 mod 64 = x2 /\ v mod 64 = x3.
Proof.
  intros H1 H2 H3 v.
  assert (v = ((x0 * 64 + x1) * 64 + x2) * 64 + x3) as E by (unfold v; lia).
  change 262144 with (64 * (64 * 64)). change 4096 with (64 * 64).
  rewrite <- !N.div_div by lia. rewrite E.
  destruct (digit ((x0 * 64 + x1) * 64 + x2) x3 H3) as [-> ->].
  destruct (digit (x0 * 64 + x1) x2 H2) as [-> ->].
  destruct (digit x0 x1 H1) as [-> ->]. auto.
Qed.

Lemma utf8_nonempty r : (1 <= length (utf8 r) <= 4)%nat.
Proof. unfold utf8. repeat (destruct (_ <? _)); cbn [length]; lia. Qed.
Lemma utf8_not_nil r : utf8 r <> [].
Proof. intros E. pose proof (utf8_nonempty r). rewrite E in *. cbn [length] in *. lia. Qed.

Ltac ltbs := repeat match goal with
  | |- context [?a <? ?b] => destruct (N.ltb_spec a b); [try lia|try lia]
  | |- context [?a <=? ?b] => destruct (N.leb_spec a b); [try lia|try lia]
  | |- context [?a =? ?b] => destruct (N.eqb_spec a b); [try lia|try lia]
  end.

Lemma in_range_true lo hi b : lo <= b <= hi -> in_range lo hi b = true.
Proof. intros H. unfold in_range. destruct (N.leb_spec lo b), (N.leb_spec b hi); auto; lia. Qed.
Lemma in_range_elim lo hi b : in_range lo hi b = true -> lo <= b <= hi.
Proof. unfold in_range. destruct (N.leb_spec lo b), (N.leb_spec b hi); cbn [andb]; intros; try discriminate; lia. Qed.

Lemma decode_utf8 r rest : scalar r -> decode_rune (utf8 r ++ rest) = Some (r, length (utf8 r)).
Proof.
  intros Hs. unfold scalar in Hs. unfold utf8.
  destruct (N.ltb_spec r 128) as [H1|H1].
  { cbn [app decode_rune length]. destruct (N.ltb_spec r 128); [reflexivity|lia]. }
  destruct (N.ltb_spec r 2048) as [H2|H2].
  { cbn [app decode_rune length]. destruct (N.ltb_spec (192 + r / 64) 128); [lia|].
    assert (lead (192 + r / 64) = Some (2%nat, 128, 191)) as ->.
    { unfold lead. ltbs. reflexivity. }
    rewrite in_range_true by lia. cbn [negb Nat.leb]. rewrite dec2.
    do 2 f_equal. lia. }
  destruct (N.ltb_spec r 65536) as [H3|H3].
  { cbn [app decode_rune length]. destruct (N.ltb_spec (224 + r / 4096) 128); [lia|].
    assert (exists lo hi, lead (224 + r / 4096) = Some (3%nat, lo, hi) /\ lo <= 128 + r / 64 mod 64 <= hi) as (lo & hi & -> & Hr).
    { unfold lead.
      destruct (N.ltb_spec (224 + r / 4096) 194); [lia|].
      destruct (N.leb_spec (224 + r / 4096) 223); [lia|].
      destruct (N.eqb_spec (224 + r / 4096) 224); [exists 160, 191; split; [reflexivity|]; lia|].
      destruct (N.eqb_spec (224 + r / 4096) 237); [exists 128, 159; split; [reflexivity|]; lia|].
      destruct (N.leb_spec (224 + r / 4096) 239); [exists 128, 191; split; [reflexivity|]; lia|lia]. }
    rewrite in_range_true by exact Hr. cbn [negb Nat.leb].
    rewrite in_range_true by lia. cbn [negb]. rewrite dec3. do 2 f_equal. lia. }
  cbn [app decode_rune length]. destruct (N.ltb_spec (240 + r / 262144) 128); [lia|].
  assert (exists lo hi, lead (240 + r / 262144) = Some (4%nat, lo, hi) /\ lo <= 128 + r / 4096 mod 64 <= hi) as (lo & hi & -> & Hr).
  { unfold lead.
    destruct (N.ltb_spec (240 + r / 262144) 194); [lia|].
    destruct (N.leb_spec (240 + r / 262144) 223); [lia|].
    destruct (N.eqb_spec (240 + r / 262144) 224); [lia|].
    destruct (N.eqb_spec (240 + r / 262144) 237); [lia|].
    destruct (N.leb_spec (240 + r / 262144) 239); [lia|].
    destruct (N.eqb_spec (240 + r / 262144) 240); [exists 144, 191; split; [reflexivity|]; lia|].
    destruct (N.leb_spec (240 + r / 262144) 243); [exists 128, 191; split; [reflexivity|]; lia|].
    destruct (N.eqb_spec (240 + r / 262144) 244); [exists 128, 143; split; [reflexivity|]; lia|lia]. }
  rewrite in_range_true by exact Hr. cbn [negb Nat.leb].
  rewrite !in_range_true by lia. cbn [negb]. rewrite dec4. do 2 f_equal. lia.
Qed.

Lemma lead_cases b sz lo hi : lead b = Some (sz, lo, hi) ->
  (sz = 2%nat /\ 194 <= b <= 223 /\ lo = 128 /\ hi = 191) \/
  (sz = 3%nat /\ 224 <= b <= 239 /\ 128 <= lo /\ hi <= 191 /\ (b = 224 -> lo = 160) /\ (b = 237 -> hi = 159)) \/
  (sz = 4%nat /\ 240 <= b <= 244 /\ 128 <= lo /\ hi <= 191 /\ (b = 240 -> lo = 144) /\ (b = 244 -> hi = 143)).
Proof.
  unfold lead.
  destruct (N.ltb_spec b 194); [discriminate|].
  destruct (N.leb_spec b 223); [intros E; inv E; left; lia|].
  destruct (N.eqb_spec b 224); [intros E; inv E; right; left; lia|].
  destruct (N.eqb_spec b 237); [intros E; inv E; right; left; lia|].
  destruct (N.leb_spec b 239); [intros E; inv E; right; left; lia|].
  destruct (N.eqb_spec b 240); [intros E; inv E; right; right; lia|].
  destruct (N.leb_spec b 243); [intros E; inv E; right; right; lia|].
  destruct (N.eqb_spec b 244); [intros E; inv E; right; right; lia|discriminate].
Qed.

Lemma decode_inv s r n : decode_rune s = Some (r, n) ->
  scalar r /\ n = length (utf8 r) /\ s = utf8 r ++ skipn n s.
Proof.
  destruct s as [|b0 r0]; [discriminate|]. cbn [decode_rune].
  destruct (N.ltb_spec b0 128) as [Hb|Hb].
  { intros E. inv E. unfold scalar, utf8. destruct (N.ltb_spec r 128); [|lia].
    split; [lia|]. split; reflexivity. }
  destruct (lead b0) as [[[sz lo] hi]|] eqn:El; [|discriminate].
  apply lead_cases in El.
  destruct r0 as [|b1 r1]; [discriminate|].
  destruct (in_range lo hi b1) eqn:E1; [|discriminate]. apply in_range_elim in E1. cbn [negb].
  destruct (Nat.leb_spec sz 2) as [Hz|Hz].
  { destruct El as [(-> & H1 & -> & ->)|[(-> & _)|(-> & _)]]; [|lia|lia].
    intros E. inv E. rewrite dec2. unfold scalar, utf8.
    destruct (N.ltb_spec (b0 mod 32 * 64 + b1 mod 64) 128); [lia|].
    destruct (N.ltb_spec (b0 mod 32 * 64 + b1 mod 64) 2048); [|lia].
    split; [lia|]. split; [reflexivity|]. cbn [skipn app]. f_equal; [lia|]. f_equal. lia. }
  destruct r1 as [|b2 r2]; [discriminate|].
  destruct (in_range 128 191 b2) eqn:E2; [|discriminate]. apply in_range_elim in E2. cbn [negb].
  destruct (Nat.leb_spec sz 3) as [Hz3|Hz3].
  { destruct El as [(-> & _)|[(-> & H1 & H2 & H3 & H4 & H5)|(-> & _)]]; [lia| |lia].
    intros E. inv E. rewrite dec3. unfold scalar, utf8.
    set (v := b0 mod 16 * 4096 + b1 mod 64 * 64 + b2 mod 64).
    assert (v / 4096 = b0 - 224 /\ v / 64 mod 64 = b1 - 128 /\ v mod 64 = b2 - 128) as (V1 & V2 & V3) by (unfold v; lia).
    assert (2048 <= v < 65536) as V4 by (unfold v; lia).
    assert (v < 55296 \/ 57344 <= v) as V5 by (unfold v; lia).
    clearbody v.
    destruct (N.ltb_spec v 128); [lia|]. destruct (N.ltb_spec v 2048); [lia|].
    destruct (N.ltb_spec v 65536); [|lia].
    split; [lia|]. split; [reflexivity|]. cbn [skipn app]. rewrite V1, V2, V3.
    f_equal; [lia|]. f_equal; [lia|]. f_equal. lia. }
  destruct r2 as [|b3 r3]; [discriminate|].
  destruct (in_range 128 191 b3) eqn:E3; [|discriminate]. apply in_range_elim in E3. cbn [negb].
  destruct El as [(-> & _)|[(-> & _)|(-> & H1 & H2 & H3 & H4 & H5)]]; [lia|lia|].
  intros E. inv E. rewrite dec4. unfold scalar, utf8.
  set (v := b0 mod 8 * 262144 + b1 mod 64 * 4096 + b2 mod 64 * 64 + b3 mod 64).
  assert (b0 mod 8 = b0 - 240 /\ b1 mod 64 = b1 - 128 /\ b2 mod 64 = b2 - 128 /\ b3 mod 64 = b3 - 128)
    as (M0 & M1 & M2 & M3) by (repeat split; lia).
  destruct (digits4 (b0 - 240) (b1 - 128) (b2 - 128) (b3 - 128)) as (V1 & V2 & V3 & V3'); [lia|lia|lia|].
  unfold v. rewrite M0, M1, M2, M3.
  assert (65536 <= (b0 - 240) * 262144 + (b1 - 128) * 4096 + (b2 - 128) * 64 + (b3 - 128) < 1114112) as V4 by (clear - H1 H2 H3 H4 H5 E1 E2 E3; lia).
  clear v. set (v := (b0 - 240) * 262144 + (b1 - 128) * 4096 + (b2 - 128) * 64 + (b3 - 128)) in *.
  clearbody v.
  destruct (N.ltb_spec v 128); [lia|]. destruct (N.ltb_spec v 2048); [lia|].
  destruct (N.ltb_spec v 65536); [lia|].
  split; [lia|]. split; [reflexivity|]. cbn [skipn app]. rewrite V1, V2, V3, V3'.
  clear - E1 E2 E3 H1 H2 H3.
  f_equal; [lia|]. f_equal; [lia|]. f_equal; [lia|]. f_equal. lia.
Qed.

Lemma utf8s_app a b : utf8s (a ++ b) = utf8s a ++ utf8s b.
Proof. unfold utf8s. rewrite map_app, concat_app. reflexivity. Qed.
Lemma utf8s_cons r rs : utf8s (r :: rs) = utf8 r ++ utf8s rs.
Proof. reflexivity. Qed.
Lemma utf8s_length rs : (length rs <= length (utf8s rs))%nat.
Proof.
  induction rs as [|r rs IH]; [cbn; lia|]. rewrite utf8s_cons, app_length. cbn [length].
  pose proof (utf8_nonempty r). lia.
Qed.

Lemma valid_loop_text rs : Forall scalar rs -> forall fuel, (length (utf8s rs) <= fuel)%nat -> valid_loop fuel (utf8s rs) = true.
Proof.
  induction 1 as [|r rs Hr _ IH]; intros fuel Hf.
  - destruct fuel; reflexivity.
  - rewrite utf8s_cons in *. rewrite app_length in Hf. pose proof (utf8_nonempty r) as L.
    destruct fuel as [|k]; [lia|].
    destruct (utf8 r ++ utf8s rs) as [|b s] eqn:E.
    { apply app_eq_nil in E. destruct E. exfalso. eapply utf8_not_nil; eauto. }
    cbn [valid_loop]. rewrite <- E, decode_utf8 by exact Hr.
    rewrite skipn_app_exact by reflexivity. apply IH. lia.
Qed.
Lemma valid_loop_inv fuel : forall s, valid_loop fuel s = true -> exists rs, is_text s rs.
Proof.
  induction fuel as [|k IH]; intros s H.
  - destruct s; [|discriminate]. exists []. split; [constructor|reflexivity].
  - destruct s as [|b s]; [exists []; split; [constructor|reflexivity]|].
    cbn [valid_loop] in H. destruct (decode_rune (b :: s)) as [[r n]|] eqn:E; [|discriminate].
    apply decode_inv in E. destruct E as (Hs & Hn & Es).
    destruct (IH _ H) as (rs & Hrs & Ers). exists (r :: rs). split; [constructor; assumption|].
    rewrite utf8s_cons, <- Ers. exact Es.
Qed.
Lemma utf8_valid_spec d : utf8_valid d = true <-> exists rs, is_text d rs.
Proof.
  split.
  - apply valid_loop_inv.
  - intros (rs & Hrs & ->). apply valid_loop_text; [exact Hrs|lia].
Qed.

(** Positions of the characters of a text. *)
Fixpoint positions (i : nat) (rs : list N) : list (nat * N) :=
  match rs with [] => [] | r :: t => (i, r) :: positions (i + length (utf8 r)) t end.
Lemma range_loop_text rs : Forall scalar rs -> forall fuel i, (length (utf8s rs) <= fuel)%nat ->
  range_loop fuel i (utf8s rs) = positions i rs.
Proof.
  induction 1 as [|r rs Hr _ IH]; intros fuel i Hf.
  - destruct fuel; reflexivity.
  - rewrite utf8s_cons in *. rewrite app_length in Hf. pose proof (utf8_nonempty r) as L.
    destruct fuel as [|k]; [lia|].
    destruct (utf8 r ++ utf8s rs) as [|b s] eqn:E.
    { apply app_eq_nil in E. destruct E. exfalso. eapply utf8_not_nil; eauto. }
    cbn [range_loop positions]. rewrite <- E, decode_utf8 by exact Hr.
    rewrite skipn_app_exact by reflexivity. f_equal. apply IH. lia.
Qed.
Lemma range_string_text d rs : is_text d rs -> range_string d = positions 0 rs.
Proof. intros [H ->]. apply range_loop_text; [exact H|lia]. Qed.
Lemma positions_runes rs : forall i, map snd (positions i rs) = rs.
Proof. induction rs as [|r rs IH]; intros i; [reflexivity|]. cbn [positions map snd]. rewrite IH. reflexivity. Qed.

(** A text has one reading. *)
Lemma utf8s_inj a : Forall scalar a -> forall b, Forall scalar b -> utf8s a = utf8s b -> a = b.
Proof.
  induction 1 as [|r a Hr Ha IH]; intros b Hb E.
  - destruct b as [|x b]; [reflexivity|]. rewrite utf8s_cons in E. cbn in E.
    symmetry in E. apply app_eq_nil in E. destruct E. exfalso. eapply utf8_not_nil; eauto.
  - destruct Hb as [|x b Hx Hb].
    + rewrite utf8s_cons in E. apply app_eq_nil in E. destruct E. exfalso. eapply utf8_not_nil; eauto.
    + rewrite !utf8s_cons in E. pose proof (decode_utf8 r (utf8s a) Hr) as D1.
      pose proof (decode_utf8 x (utf8s b) Hx) as D2. rewrite E in D1. rewrite D1 in D2. inv D2.
      apply app_inv_head in E. f_equal. apply IH; assumption.
Qed.

(** Lower case. *)
Definition lower_text (u : unicode) (rs : list N) : bytes :=
  concat (map (fun r => encode_rune (to_lower u r)) rs).
Lemma utf8_ascii_iff r : scalar r -> forallb (fun c => c <? 128) (utf8 r) = (r <? 128).
Proof.
  intros H. unfold utf8. destruct (N.ltb_spec r 128) as [H1|H1].
  - cbn [forallb]. destruct (N.ltb_spec r 128); [reflexivity|lia].
  - destruct (N.ltb_spec r 2048).
    + cbn [forallb]. destruct (N.ltb_spec (192 + r / 64) 128); [lia|reflexivity].
    + destruct (N.ltb_spec r 65536); cbn [forallb].
      * destruct (N.ltb_spec (224 + r / 4096) 128); [lia|reflexivity].
      * destruct (N.ltb_spec (240 + r / 262144) 128); [lia|reflexivity].
Qed.
Lemma bytes_to_lower_text u d rs : is_text d rs -> bytes_to_lower u d = lower_text u rs.
Proof.
  intros T. unfold bytes_to_lower.
  destruct (forallb (fun c => c <? 128) d) eqn:E.
  - destruct T as [Hs ->]. induction Hs as [|r rs Hr Hs IH]; [reflexivity|].
    rewrite utf8s_cons, forallb_app, utf8_ascii_iff in E by exact Hr. apply andb_prop in E. destruct E as [E1 E2].
    apply N.ltb_lt in E1. rewrite utf8s_cons. unfold utf8 at 1. destruct (N.ltb_spec r 128); [|lia].
    cbn [app map]. unfold lower_text. cbn [map concat]. fold (lower_text u rs). rewrite <- (IH E2).
    unfold to_lower. destruct (N.ltb_spec r 128); [|lia].
    unfold encode_rune.
    assert ((if in_range 65 90 r then r + 32 else r) <= 127) as Hb.
    { destruct (in_range 65 90 r) eqn:Er; [apply in_range_elim in Er|]; lia. }
    destruct (N.leb_spec (if in_range 65 90 r then r + 32 else r) 127); [|lia].
    cbn [app]. f_equal. unfold u8. rewrite N.mod_small by lia. reflexivity.
  - unfold map_lower. rewrite (range_string_text d rs T). unfold lower_text.
    rewrite <- (positions_runes rs 0) at 2. rewrite map_map. reflexivity.
Qed.

(** Encoding. *)
Lemma lor192 x : x < 32 -> N.lor 192 x = 192 + x.
Proof. intros H. change 192 with (N.shiftl 6 5). rewrite lor_add by exact H. reflexivity. Qed.
Lemma lor224 x : x < 16 -> N.lor 224 x = 224 + x.
Proof. intros H. change 224 with (N.shiftl 14 4). rewrite lor_add by exact H. reflexivity. Qed.
Lemma lor240 x : x < 8 -> N.lor 240 x = 240 + x.
Proof. intros H. change 240 with (N.shiftl 30 3). rewrite lor_add by exact H. reflexivity. Qed.
Lemma lor128 x : N.lor 128 (N.land (u8 x) 63) = 128 + x mod 64.
Proof.
  rewrite land63. change 128 with (N.shiftl 2 6). rewrite lor_add by (change (2 ^ 6) with 64; lia).
  change (2 * 2 ^ 6) with 128. change (N.shiftl 2 6) with 128. f_equal. unfold u8.
  pose proof (N.div_mod x 256 ltac:(lia)) as D. set (q := x / 256) in *. set (y := x mod 256) in *. clearbody q y. subst x.
  replace (256 * q + y) with (y + (4 * q) * 64) by lia. rewrite N.mod_add by lia. reflexivity.
Qed.
Lemma encode_rune_utf8 r : encode_rune r = utf8 (written r).
Proof.
  unfold encode_rune, written.
  destruct (N.leb_spec r 127) as [A|A].
  { destruct (N.ltb_spec r 55296); [|lia]. cbn [orb]. unfold utf8. destruct (N.ltb_spec r 128); [|lia].
    unfold u8. rewrite N.mod_small by lia. reflexivity. }
  destruct (N.leb_spec r 2047) as [B|B].
  { destruct (N.ltb_spec r 55296); [|lia]. cbn [orb]. unfold utf8. destruct (N.ltb_spec r 128); [lia|]. destruct (N.ltb_spec r 2048); [|lia].
    rewrite lor128, N.shiftr_div_pow2. change (2 ^ 6) with 64. unfold u8. rewrite (N.mod_small (r / 64) 256) by lia. rewrite lor192 by lia. reflexivity. }
  assert (E : (if (1114111 <? r) || ((55296 <=? r) && (r <=? 57343)) then rune_error else r) =
              (if (r <? 55296) || ((57344 <=? r) && (r <? 1114112)) then r else 65533)).
  { destruct (N.ltb_spec 1114111 r), (N.leb_spec 55296 r), (N.leb_spec r 57343), (N.ltb_spec r 55296), (N.leb_spec 57344 r), (N.ltb_spec r 1114112);
      cbn [andb orb]; try reflexivity; lia. }
  rewrite E. clear E. set (x := if (r <? 55296) || ((57344 <=? r) && (r <? 1114112)) then r else 65533).
  assert (Hx : 2047 < x < 1114112).
  { unfold x. destruct (N.ltb_spec r 55296), (N.leb_spec 57344 r), (N.ltb_spec r 1114112); cbn [andb orb]; lia. }
  clearbody x. cbv zeta. unfold utf8. destruct (N.ltb_spec x 128); [lia|]. destruct (N.ltb_spec x 2048); [lia|].
  rewrite !lor128, !N.shiftr_div_pow2. change (2 ^ 6) with 64. change (2 ^ 12) with 4096. change (2 ^ 18) with 262144. unfold u8.
  destruct (N.leb_spec x 65535); destruct (N.ltb_spec x 65536); try lia.
  - rewrite (N.mod_small (x / 4096) 256) by lia. rewrite lor224 by lia. reflexivity.
  - rewrite (N.mod_small (x / 262144) 256) by lia. rewrite lor240 by lia. reflexivity.
Qed.
Lemma lower_text_utf8 u rs : lower_text u rs = utf8s (map (fun r => written (lower_case u r)) rs).
Proof.
  unfold lower_text, utf8s. rewrite map_map. apply (f_equal (@concat N)). apply map_ext. intros r. rewrite encode_rune_utf8. reflexivity.
Qed.
Lemma bytes_to_lower_lowered u w w' : lowered u w w' -> bytes_to_lower u w = w'.
Proof. intros (rs & T & ->). rewrite (bytes_to_lower_text u w rs T). apply lower_text_utf8. Qed.
