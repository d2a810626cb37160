(** Posting lists and records of arbitrary bytes. *)
From Verif Require Import Model.Base Model.Varint Model.Poster Model.Dmd Spec.Damaged Proof.Tactics Proof.VarintP Proof.CutP Proof.PosterP Proof.DamagedP.
Local Open Scope N_scope.

(** * Numbers in a buffer *)
Lemma uvarint_aux_over buf : forall i x s, (10 <= i)%nat -> (snd (uvarint_aux buf i x s) <= 0)%Z.
Proof.
  induction buf as [|b r IH]; intros i x s L; cbn [uvarint_aux snd]; [lia|].
  destruct (b <? 128); [|apply IH; lia]. destruct (Nat.leb_spec max_varint_len64 i); [|unfold max_varint_len64 in *; lia]. cbn [orb snd]. lia.
Qed.
Lemma uvarint_aux_read k : forall i buf x s, (k + i = 10)%nat ->
  match read_uvarint_aux k buf x s with
  | Ok (v, r') => uvarint_aux buf i x s = (v, Z.of_nat (i + (length buf - length r')))
  | _ => (snd (uvarint_aux buf i x s) <= 0)%Z
  end.
Proof.
  induction k as [|k IH]; intros i buf x s Hk; cbn [read_uvarint_aux].
  { apply uvarint_aux_over. lia. }
  destruct buf as [|b r]; cbn [uvarint_aux]; [cbn; lia|]. destruct (b <? 128).
  - assert ((max_varint_len64 <=? i)%nat = false) as -> by (apply Nat.leb_gt; unfold max_varint_len64; lia). cbn [orb].
    assert ((i =? max_varint_len64 - 1)%nat = (k =? 0)%nat) as ->.
    { unfold max_varint_len64. destruct (Nat.eqb_spec i (10 - 1)), (Nat.eqb_spec k 0); lia. }
    destruct ((k =? 0)%nat && (1 <? b)); [cbn [snd]; lia|]. cbn [length]. f_equal. lia.
  - specialize (IH (S i) r (N.lor x (u64 (N.shiftl (N.land b 127) s))) (s + 7) ltac:(lia)).
    destruct (read_uvarint_aux k r _ _) as [[v r']|e| |] eqn:E; try exact IH. rewrite IH. f_equal. cbn [length].
    assert (length r' <= length r)%nat; [|lia]. destruct (uvarint_err k r (N.lor x (u64 (N.shiftl (N.land b 127) s))) (s + 7)) as [(v0 & r0 & E0 & L)|(e & E0)]; rewrite E in E0; [|discriminate].
    injection E0 as <- <-. lia.
Qed.
Lemma uvarint_cases buf : (exists s v r, buf = s ++ r /\ number s v /\ uvarint buf = (v, Z.of_nat (length s))) \/
  ((forall s v r, buf = s ++ r -> ~ number s v) /\ (snd (uvarint buf) <= 0)%Z).
Proof.
  pose proof (uvarint_aux_read 10 0 buf 0 0 eq_refl) as H. fold (uvarint buf) in H. fold (read_uvarint buf) in H.
  assert (Q : (exists v r', read_uvarint buf = Ok (v, r')) \/ forall s v r, buf = s ++ r -> ~ number s v).
  { destruct (read_uvarint buf) as [[v r']| | |] eqn:E; [left; eauto|right|right|right]; intros s v r Eb Nv;
      assert (read_uvarint buf = Ok (v, r)) as X by (apply read_number; eauto); congruence. }
  change (read_uvarint_aux 10 buf 0 0) with (read_uvarint buf) in H. destruct Q as [(v & r' & E)|Q].
  - left. rewrite E in H. apply read_number in E. destruct E as (s & -> & Nv). exists s, v, r'. split; [reflexivity|]. split; [exact Nv|].
    rewrite H, app_length. f_equal. lia.
  - right. split; [exact Q|]. destruct (read_uvarint buf) as [[v r']| | |] eqn:E; auto. apply read_number in E. destruct E as (s & E & Nv). destruct (Q _ _ _ E Nv).
Qed.
Lemma unzigzag_signed v : v < 2 ^ 64 -> unzigzag v = signed v.
Proof.
  change (2 ^ 64) with 18446744073709551616. intros L. unfold unzigzag, signed. rewrite land1, N.shiftr_div_pow2. change (2 ^ 1) with 2.
  assert (i64_of_u64 (v / 2) = Z.of_N (v / 2)) as ->.
  { unfold i64_of_u64. destruct (N.ltb_spec (v / 2) 9223372036854775808) as [H|H]; [reflexivity|]. exfalso.
    assert (v / 2 < 9223372036854775808) by (apply N.div_lt_upper_bound; lia). lia. }
  rewrite <- N.negb_odd. destruct (N.odd v) eqn:E.
  - assert (v mod 2 = 1) as -> by (rewrite <- (N.bit0_mod v), N.bit0_odd, E; reflexivity). change (1 =? 0) with false. cbn [negb]. generalize (v / 2). intros x. unfold Z.lnot. lia.
  - assert (v mod 2 = 0) as -> by (rewrite <- (N.bit0_mod v), N.bit0_odd, E; reflexivity). reflexivity.
Qed.

(** * A number in a file *)
Lemma base128_ends s v : base128 s v -> exists a b, s = a ++ [b] /\ Forall (fun c => 128 <= c) a /\ b < 128.
Proof.
  induction 1 as [b L|b s v L H (a & c & -> & Fa & Lc)]; [exists [], b; auto|]. exists (b :: a), c. split; [reflexivity|]. auto.
Qed.
Lemma base128_all a b : Forall (fun c => 128 <= c) a -> b < 128 -> exists v, base128 (a ++ [b]) v.
Proof.
  intros F L. induction F as [|c a Lc F (v & IH)]; cbn [app]; [exists b; constructor; exact L|]. eexists. constructor; eassumption.
Qed.
Lemma app_front {A} (s t a b : list A) : s ++ t = a ++ b -> (length s <= length a)%nat -> exists w, a = s ++ w.
Proof.
  revert a. induction s as [|x s IH]; intros [|y a] E L; cbn [length app] in *; try lia; [exists []; reflexivity|exists (y :: a); reflexivity|].
  injection E as -> E. destruct (IH a E ltac:(lia)) as (w & ->). exists w. reflexivity.
Qed.
Lemma app_same {A} (a b a' b' : list A) : a ++ b = a' ++ b' -> length a = length a' -> a = a' /\ b = b'.
Proof.
  revert a'. induction a as [|x a IH]; intros [|y a'] E L; cbn [length app] in *; try lia; [auto|].
  injection E as -> E. destruct (IH a' E ltac:(lia)) as [-> ->]. auto.
Qed.
Lemma lies_skipn f p s : lies_at f p s <-> (0 <= p <= zlen f)%Z /\ exists t, skipn (Z.to_nat p) f = s ++ t.
Proof.
  unfold lies_at, zlen. split.
  - intros (a & b & -> & <-). rewrite !app_length. split; [lia|]. exists b. rewrite Nat2Z.id, skipn_app, skipn_all, Nat.sub_diag. reflexivity.
  - intros (L & t & E). exists (firstn (Z.to_nat p) f), t. rewrite <- E, firstn_skipn. split; [reflexivity|]. rewrite firstn_length. lia.
Qed.
Lemma pread_byte f p n buf r : (0 <= p)%Z -> (0 <= n)%Z -> skipn (Z.to_nat p) f = buf ++ r -> zlen buf = n ->
  pread f (p + n) 1 = match r with b :: _ => Ok [b] | [] => Err EOF end.
Proof.
  intros Hp Hn E L. unfold pread. destruct (Z.ltb_spec (p + n) 0); [lia|]. cbn [Z.leb Z.compare].
  pose proof (f_equal (@length _) E) as El. rewrite skipn_length, app_length in El. unfold zlen in *.
  assert (Es : (length r = 0 \/ skipn (Z.to_nat (p + n)) f = r)%nat).
  { destruct (Nat.eq_dec (length r) 0) as [Z0|Z0]; [left; exact Z0|right]. replace (Z.to_nat (p + n)) with (Z.to_nat p + length buf)%nat by lia.
    rewrite skipn_add, E, skipn_app, skipn_all, Nat.sub_diag. reflexivity. }
  destruct r as [|b r]; cbn [length] in *.
  - destruct (Z.leb_spec (p + n + 1) (Z.of_nat (length f))); [lia|reflexivity].
  - destruct (Z.leb_spec (p + n + 1) (Z.of_nat (length f))); [|lia]. destruct Es as [|Es]; [lia|]. rewrite Es. reflexivity.
Qed.
Lemma varint_at_aux f p r : (0 <= p)%Z -> skipn (Z.to_nat p) f = r -> forall k n buf r', r = buf ++ r' -> zlen buf = n -> (k + length buf = 10)%nat ->
  Forall (fun c => 128 <= c) buf ->
  (exists s v t, r = s ++ t /\ number s v /\ read_varint_at_aux k f p n buf = Ok (signed v, zlen s)) \/
  ((forall s v t, r = s ++ t -> ~ number s v) /\ exists e, read_varint_at_aux k f p n buf = Err e).
Proof.
  intros Hp Er k. induction k as [|k IH]; intros n buf r' E L Hk F; cbn [read_varint_at_aux].
  - right. split; [|eauto]. intros s v t Es [B [Ls _]]. destruct (base128_ends _ _ B) as (a & b & -> & _ & Lb).
    assert (In b buf) as I.
    { rewrite E in Es. destruct (app_front _ _ _ _ (eq_sym Es) ltac:(lia)) as (w & ->). apply in_app_iff. left. apply in_app_iff. right. left. reflexivity. }
    rewrite Forall_forall in F. specialize (F b I). lia.
  - rewrite (pread_byte f p n buf r' Hp) by (unfold zlen in *; try lia; congruence).
    destruct r' as [|b r']; cbn [bind].
    { right. split; [|eauto]. intros s v t Es [B _]. destruct (base128_ends _ _ B) as (a & b & -> & _ & Lb). rewrite app_nil_r in E. subst buf.
      rewrite Forall_forall in F. assert (128 <= b); [|lia]. apply F. rewrite Es. apply in_app_iff. left. apply in_app_iff. right. left. reflexivity. }
    destruct (N.ltb_spec b 128) as [Lb|Lb].
    + destruct (base128_all buf b F Lb) as (w & Bw). unfold varint.
      assert (Q : forall s v t, r = s ++ t -> number s v -> s = buf ++ [b]).
      { intros s v t Es [B _]. rewrite E in Es. change (b :: r') with ([b] ++ r') in Es. rewrite app_assoc in Es.
        destruct (base128_prefix _ _ Bw _ _ _ _ B Es) as [<- _]. reflexivity. }
      destruct (uvarint_cases (buf ++ [b])) as [(s & v & t & Es & Nv & Eu)|[Ne Eu]].
      * left. assert (s = buf ++ [b]) as ->.
        { destruct Nv as [B _]. rewrite <- (app_nil_r (buf ++ [b])) in Es. destruct (base128_prefix _ _ Bw _ _ _ _ B Es) as [<- _]. reflexivity. }
        exists (buf ++ [b]), v, r'. split; [rewrite E, <- app_assoc; reflexivity|]. split; [exact Nv|]. rewrite Eu. destruct (Z.leb_spec (Z.of_nat (length (buf ++ [b]))) 0).
        { rewrite app_length in *. cbn [length] in *. lia. }
        rewrite unzigzag_signed by apply Nv. unfold zlen in *. rewrite app_length. cbn [length]. repeat f_equal. lia.
      * right. split.
        -- intros s v t Es Nv. pose proof (Q _ _ _ Es Nv) as ->. apply (Ne (buf ++ [b]) v []); [rewrite app_nil_r; reflexivity|exact Nv].
        -- destruct (uvarint (buf ++ [b])) as [ux m]. cbn [snd] in Eu. destruct (Z.leb_spec m 0); [eauto|lia].
    + apply (IH (n + 1)%Z (buf ++ [b]) r').
      * rewrite E, <- app_assoc. reflexivity.
      * unfold zlen in *. rewrite app_length. cbn [length]. lia.
      * rewrite app_length. cbn [length]. lia.
      * apply Forall_app. auto.
Qed.
Lemma varint_at_cases f p : (exists s v, lies_at f p s /\ number s v /\ read_varint_at f p = Ok (signed v, zlen s)) \/
  ((forall s v, lies_at f p s -> ~ number s v) /\ exists e, read_varint_at f p = Err e).
Proof.
  unfold read_varint_at. destruct (Z.ltb_spec p 0) as [L|L].
  - right. split.
    + intros s v (a & b & _ & E) _. unfold zlen in E. lia.
    + cbn [read_varint_at_aux max_varint_len64]. unfold pread. destruct (Z.ltb_spec (p + 0) 0); [|lia]. cbn [bind]. eauto.
  - destruct (varint_at_aux f p _ L eq_refl max_varint_len64 0%Z [] (skipn (Z.to_nat p) f) eq_refl eq_refl eq_refl (Forall_nil _)) as [(s & v & t & Es & Nv & E)|[Ne E]].
    + left. exists s, v. split; [|auto]. apply lies_skipn. split; [|eauto]. split; [exact L|].
      destruct (Z.le_gt_cases p (zlen f)) as [L1|L1]; [exact L1|]. exfalso. apply (f_equal (@length _)) in Es. rewrite skipn_length, app_length in Es.
      unfold zlen in L1. destruct Nv as [B _]. apply base128_nonempty in B. lia.
    + right. split; [|exact E]. intros s v Hl. apply lies_skipn in Hl. destruct Hl as (_ & t & Es). exact (Ne _ _ _ Es).
Qed.

(** * A chunk *)
Lemma last_ids cur d ds : ds <> [] -> last (ids_from cur (d :: ds)) 0 = last (ids_from ((cur + d) mod 2 ^ 32) ds) 0.
Proof. destruct ds as [|d' ds]; [congruence|]. reflexivity. Qed.
Lemma decode_cases fuel : forall rest i len8 cur ids, (length rest < fuel)%nat ->
  (exists body ds link, rest = body ++ link /\ zlen body = (len8 - i)%Z /\ deltas body ds /\ ds <> [] /\
     decode_chunk fuel rest i len8 cur ids = Ok (ids ++ ids_from cur ds, last (ids_from cur ds) 0, link)) \/
  ((forall body ds link, rest = body ++ link -> zlen body = (len8 - i)%Z -> deltas body ds -> ds = []) /\
   exists e, decode_chunk fuel rest i len8 cur ids = Err e).
Proof.
  induction fuel as [|fuel IH]; intros rest i len8 cur ids Lf; [lia|]. cbn [decode_chunk].
  destruct (uvarint_cases rest) as [(s & d & r & -> & Nd & ->)|[Ne Eu]].
  2:{ right. split.
      - intros body ds link E _ D. destruct D as [|s d r ds Nd D]; [reflexivity|]. exfalso. apply (Ne s d (r ++ link)); [rewrite E, <- app_assoc; reflexivity|exact (proj1 Nd)].
      - destruct (uvarint rest) as [d t]. cbn [snd] in Eu. destruct (Z.leb_spec t 0); [eauto|lia]. }
  pose proof (base128_nonempty _ _ (proj1 Nd)) as Ls. destruct (Z.leb_spec (Z.of_nat (length s)) 0); [lia|].
  rewrite Nat2Z.id, skipn_app, skipn_all, Nat.sub_diag. cbn [skipn app].
  assert (Q : forall body ds link, s ++ r = body ++ link -> deltas body ds -> ds = [] \/ number32 s d /\ exists body' ds', body = s ++ body' /\ ds = d :: ds' /\ r = body' ++ link /\ deltas body' ds').
  { intros body ds link E D. destruct D as [|s' d' r' ds' Nd' D]; [left; reflexivity|right]. rewrite <- app_assoc in E.
    destruct (number_prefix _ _ _ _ _ _ Nd (proj1 Nd') E) as (<- & -> & <-). split; [exact Nd'|]. exists r', ds'. auto. }
  destruct (N.leb_spec 4294967296 d) as [Ld|Ld].
  { right. split; [|eauto]. intros body ds link E _ D. destruct (Q _ _ _ E D) as [->|[[_ N32] _]]; [reflexivity|]. change (2 ^ 32) with 4294967296 in N32. lia. }
  assert (N32 : number32 s d) by (split; [exact Nd|exact Ld]).
  destruct (Z.ltb_spec len8 (i + Z.of_nat (length s))) as [Li|Li].
  { right. split; [|eauto]. intros body ds link E L D. destruct (Q _ _ _ E D) as [->|[_ (b' & ds' & -> & _)]]; [reflexivity|]. unfold zlen in L. rewrite app_length in L. lia. }
  destruct (Z.eqb_spec (i + Z.of_nat (length s)) len8) as [Ei|Ei].
  { left. exists s, [d], r. split; [reflexivity|]. split; [unfold zlen; lia|]. split; [rewrite <- (app_nil_r s); constructor; [exact N32|constructor]|].
    split; [discriminate|]. reflexivity. }
  rewrite app_length in Lf.
  destruct (IH r (i + Z.of_nat (length s))%Z len8 (add32 cur d) (ids ++ [add32 cur d]) ltac:(lia)) as [(body & ds & link & -> & Lb & D & Ne & E)|[Ne E]].
  - left. exists (s ++ body), (d :: ds), link. split; [rewrite <- app_assoc; reflexivity|]. split; [unfold zlen in *; rewrite app_length; lia|].
    split; [constructor; assumption|]. split; [discriminate|]. rewrite E, last_ids by exact Ne. cbn [ids_from]. rewrite <- app_assoc. reflexivity.
  - right. split; [|exact E]. intros body ds link Er L D. destruct (Q _ _ _ Er D) as [->|[_ (b' & ds' & -> & -> & -> & D')]]; [reflexivity|]. exfalso.
    assert (ds' = []) as ->. { apply (Ne b' ds' link eq_refl); [|exact D']. unfold zlen in *. rewrite app_length in L. lia. }
    inversion D'; subst. rewrite app_nil_r in L. unfold zlen in L. lia.
Qed.
(** ** Big-endian numbers *)
Lemma shiftr_more x b k : b < 256 -> N.shiftr (x * 256 + b) (k + 8) = N.shiftr x k.
Proof.
  intros L. replace (k + 8) with (8 + k) by apply N.add_comm. rewrite <- N.shiftr_shiftr. f_equal. rewrite N.shiftr_div_pow2. change (2 ^ 8) with 256. rewrite N.add_comm, N.div_add by discriminate.
  rewrite N.div_small by exact L. reflexivity.
Qed.
Lemma u8_more x b : b < 256 -> u8 (x * 256 + b) = b.
Proof. intros L. unfold u8. rewrite N.add_comm, N.mod_add by discriminate. apply N.mod_small, L. Qed.
Lemma big_bound l : Forall is_byte l -> big_endian l < 256 ^ nlen l.
Proof.
  unfold big_endian, nlen. induction l as [|b l IH] using rev_ind; intros F; [reflexivity|].
  apply Forall_app in F. destruct F as [F Fb]. inversion Fb as [|? ? Lb _]; subst. rewrite fold_left_app, app_length, Nat.add_1_r, Nnat.Nat2N.inj_succ, N.pow_succ_r'. cbn [fold_left].
  specialize (IH F). unfold is_byte in Lb. generalize dependent (256 ^ N.of_nat (length l)). intros. lia.
Qed.
Lemma be64_big l r : length l = 8%nat -> Forall is_byte l -> be64 (l ++ r) = big_endian l.
Proof.
  intros L F. destruct l as [|b0 [|b1 [|b2 [|b3 [|b4 [|b5 [|b6 [|b7 [|]]]]]]]]]; try discriminate.
  pose proof (big_bound _ F) as Bd. change (256 ^ nlen _) with 18446744073709551616 in Bd.
  assert (put_be64 (big_endian [b0; b1; b2; b3; b4; b5; b6; b7]) = [b0; b1; b2; b3; b4; b5; b6; b7]) as E; [|rewrite <- E at 1; apply be64_put, Bd].
  clear Bd L. repeat match goal with H : Forall is_byte (_ :: _) |- _ => apply Forall_cons_iff in H; let X := fresh "L" in destruct H as [X H]; unfold is_byte in X end.
  unfold put_be64, big_endian. cbn [fold_left].
  change 56 with (48 + 8). change 48 with (40 + 8). change 40 with (32 + 8). change 32 with (24 + 8). change 24 with (16 + 8). change 16 with (8 + 8). change 8 with (0 + 8).
  rewrite !shiftr_more by assumption. rewrite !N.shiftr_0_r, !u8_more by assumption. reflexivity.
Qed.
Lemma be32_big l r : length l = 4%nat -> Forall is_byte l -> be32 (l ++ r) = big_endian l.
Proof.
  intros L F. destruct l as [|b0 [|b1 [|b2 [|b3 [|]]]]]; try discriminate.
  pose proof (big_bound _ F) as Bd. change (256 ^ nlen _) with 4294967296 in Bd.
  assert (put_be32 (big_endian [b0; b1; b2; b3]) = [b0; b1; b2; b3]) as E; [|rewrite <- E at 1; apply be32_put, Bd].
  clear Bd L. repeat match goal with H : Forall is_byte (_ :: _) |- _ => apply Forall_cons_iff in H; let X := fresh "L" in destruct H as [X H]; unfold is_byte in X end.
  unfold put_be32, big_endian. cbn [fold_left]. change 24 with (16 + 8). change 16 with (8 + 8). change 8 with (0 + 8).
  rewrite !shiftr_more by assumption. rewrite !N.shiftr_0_r, !u8_more by assumption. reflexivity.
Qed.
Lemma twos_i64 x : i64_of_u64 x = twos64 x.
Proof. unfold i64_of_u64, twos64. change (2 ^ 63) with 9223372036854775808. reflexivity. Qed.
Lemma lies_number f p s v s' v' : lies_at f p s -> number s v -> lies_at f p s' -> number s' v' -> s = s' /\ v = v'.
Proof.
  intros H Nv H' Nv'. apply lies_skipn in H, H'. destruct H as (_ & t & E), H' as (_ & t' & E'). rewrite E in E'.
  destruct (number_prefix _ _ _ _ _ _ Nv Nv' E') as (-> & _ & ->). auto.
Qed.
Lemma lies_front f p s x : lies_at f p (s ++ x) -> lies_at f p s.
Proof. intros (a & b & -> & L). exists a, (x ++ b). rewrite <- app_assoc. auto. Qed.
Lemma lies_bytes f p s : Forall is_byte f -> lies_at f p s -> Forall is_byte s.
Proof. intros F (a & b & -> & _). rewrite !Forall_app in F. apply F. Qed.
Lemma pread_lies f p n s : lies_at f p s -> zlen s = n -> pread f p n = Ok s.
Proof.
  intros (a & b & -> & <-) <-. unfold pread, zlen. rewrite !app_length. destruct (Z.ltb_spec (Z.of_nat (length a)) 0); [lia|].
  destruct (Z.leb_spec (Z.of_nat (length s)) 0).
  { destruct s; [reflexivity|]. cbn [length] in *. lia. }
  destruct (Z.leb_spec (Z.of_nat (length a) + Z.of_nat (length s)) (Z.of_nat (length a + (length s + length b)))); [|lia].
  rewrite !Nat2Z.id, skipn_app, skipn_all, Nat.sub_diag. cbn [skipn app]. rewrite firstn_app, firstn_all, Nat.sub_diag. cbn [firstn]. rewrite app_nil_r. reflexivity.
Qed.
Lemma pread_ok f p n s : (0 < n)%Z -> pread f p n = Ok s -> lies_at f p s /\ zlen s = n.
Proof.
  intros L. unfold pread. destruct (Z.ltb_spec p 0); [discriminate|]. destruct (Z.leb_spec n 0); [lia|]. destruct (Z.leb_spec (p + n) (zlen f)) as [L1|L1]; [|discriminate].
  intros E. injection E as <-. split.
  - apply lies_skipn. split; [lia|]. exists (skipn (Z.to_nat n) (skipn (Z.to_nat p) f)). symmetry. apply firstn_skipn.
  - unfold zlen in *. rewrite firstn_length, skipn_length. lia.
Qed.
Lemma lies_app f p s x : lies_at f p s -> lies_at f (p + zlen s) x -> lies_at f p (s ++ x).
Proof.
  intros (a & b & -> & <-) (a' & b' & E & L'). exists a, b'. split; [|reflexivity]. rewrite app_assoc in E |- *.
  assert (a ++ s = a') as <-; [|rewrite E, <- !app_assoc; reflexivity].
  apply app_same in E; [exact (proj1 E)|]. rewrite app_length. unfold zlen in *. lia.
Qed.
Lemma lies_back f p s x : lies_at f p (s ++ x) -> lies_at f (p + zlen s) x.
Proof. intros (a & b & -> & <-). exists (a ++ s), b. rewrite <- !app_assoc. split; [reflexivity|]. unfold zlen. rewrite app_length. lia. Qed.

Lemma read_next_cases p f : Forall is_byte f ->
  (exists ds next, chunk f (r_nextpos p) ds next /\
     read_next p f = Ok (MkPosts 0 next (last (ids_from (r_current p) ds) 0) (ids_from (r_current p) ds))) \/
  (misfit f (r_nextpos p) /\ read_next p f = Panic) \/
  (~ misfit f (r_nextpos p) /\ (forall ds next, ~ chunk f (r_nextpos p) ds next) /\ read_next p f = Err EOther).
Proof.
  intros Fb. unfold read_next. destruct (varint_at_cases f (r_nextpos p)) as [(s & n & Hl & Nn & ->)|[Ne (e & ->)]]; cbn [wrap_err bind].
  2:{ right. right. split; [intros (s & n & Hl & Nn & _); exact (Ne _ _ Hl Nn)|]. split; [|reflexivity].
      intros ds next (s & n & body & link & Hl & Nn & _). exact (Ne _ _ (lies_front _ _ _ _ Hl) Nn). }
  destruct ((signed n <? 0)%Z || (reader_buf <? signed n)%Z) eqn:Ev.
  { right. left. split; [|reflexivity]. exists s, n. split; [exact Hl|]. split; [exact Nn|]. apply orb_true_iff in Ev. unfold reader_buf in Ev. rewrite !Z.ltb_lt in Ev. exact Ev. }
  apply orb_false_iff in Ev. unfold reader_buf in Ev. rewrite !Z.ltb_ge in Ev. destruct Ev as [V0 V1].
  assert (Nm : ~ misfit f (r_nextpos p)).
  { intros (s' & n' & Hl' & Nn' & X). destruct (lies_number _ _ _ _ _ _ Hl Nn Hl' Nn') as [_ <-]. lia. }
  assert (Q : forall ds next, chunk f (r_nextpos p) ds next -> exists body link, pread f (r_nextpos p + zlen s) (signed n) = Ok (body ++ link) /\
    zlen body = (signed n - 8 - 0)%Z /\ deltas body ds /\ ds <> []).
  { intros ds next (s' & n' & body & link & Hl' & Nn' & Ev & _ & Ll & D & Nd & _).
    destruct (lies_number _ _ _ _ _ _ Hl Nn (lies_front _ _ _ _ Hl') Nn') as [<- <-]. exists body, link.
    split; [|split; [lia|auto]]. apply pread_lies; [exact (lies_back _ _ _ _ Hl')|]. unfold zlen in *. rewrite app_length. lia. }
  destruct (pread f (r_nextpos p + zlen s) (signed n)) as [buf|e| |] eqn:Ep; cbn [wrap_err bind].
  2:{ right. right. split; [exact Nm|]. split; [|reflexivity]. intros ds next C. destruct (Q _ _ C) as (? & ? & X & _). discriminate. }
  2,3: exfalso; revert Ep; clear; unfold pread; repeat match goal with |- context [if ?b then _ else _] => destruct b end; discriminate.
  destruct (decode_cases (S (length buf)) buf 0 (signed n - 8) (r_current p) [] (Nat.lt_succ_diag_r _)) as [(body & ds & link & -> & Lb & D & Nd & ->)|[Ne (e & E)]].
  - left. cbn [bind]. assert (0 < signed n)%Z as Vp.
    { destruct D; [congruence|]. unfold zlen in Lb. lia. }
    destruct (pread_ok _ _ _ _ Vp Ep) as [Hb Lbuf]. pose proof (lies_app _ _ _ _ Hl Hb) as Hall.
    assert (Ll : length link = 8%nat). { unfold zlen in *. rewrite app_length in Lbuf. lia. }
    assert (Fl : Forall is_byte link). { apply (lies_bytes _ _ _ Fb) in Hb. apply Forall_app in Hb. apply Hb. }
    exists ds, (twos64 (big_endian link)). split.
    + exists s, n, body, link. split; [exact Hall|]. split; [exact Nn|]. split; [lia|]. split; [lia|]. auto.
    + rewrite <- (app_nil_r link) at 1. rewrite be64_big by assumption. rewrite twos_i64. reflexivity.
  - right. right. split; [exact Nm|]. split.
    + intros ds next C. destruct (Q _ _ C) as (body & link & X & Lb & D & Nd). injection X as ->. exact (Nd (Ne _ _ _ eq_refl Lb D)).
    + rewrite E. assert (e = EOther) as ->; [|reflexivity]. revert E. clear.
      generalize (S (length buf)) 0%Z (signed n - 8)%Z (r_current p) (@nil N). intros fuel. revert buf. induction fuel as [|fuel IH]; intros buf i l cur ids; cbn [decode_chunk]; [discriminate|].
      destruct (uvarint buf) as [d t]. destruct (_ <=? 0)%Z; [congruence|]. destruct (_ <=? d); [congruence|]. destruct (_ <? _)%Z; [congruence|]. destruct (_ =? _)%Z; [discriminate|]. apply IH.
Qed.

(** * Reading on from some state *)
Definition reading (f : bytes) (ps : posts) (ids : list N) (pos : Z) (cur : N) : Prop :=
  (r_i ps <= length (r_docids ps))%nat /\ exists ids', ids = skipn (r_i ps) (r_docids ps) ++ ids' /\ walk f (r_nextpos ps) (r_current ps) ids' pos cur.
Lemma reading_new f h ids pos cur : reading f (new_posts h) ids pos cur <-> walk f h 0 ids pos cur.
Proof.
  unfold reading, new_posts. cbn [r_i r_docids r_nextpos r_current length skipn app]. split.
  - intros (_ & ids' & -> & W). exact W.
  - intros W. split; [lia|]. eauto.
Qed.
Lemma ids_from_length ds : forall cur, length (ids_from cur ds) = length ds.
Proof. induction ds as [|d ds IH]; intros cur; cbn [ids_from length]; [reflexivity|]. rewrite IH. reflexivity. Qed.
Lemma chunk_nonempty f pos ds next cur : chunk f pos ds next -> ids_from cur ds <> [].
Proof. intros (s & n & body & link & _ & _ & _ & _ & _ & _ & Nd & _) E. apply Nd. destruct ds; [reflexivity|discriminate]. Qed.
Lemma deltas_fun b ds : deltas b ds -> forall b' ds', deltas b' ds' -> b = b' -> ds = ds'.
Proof.
  induction 1 as [|s d r ds Nd D IH]; intros b' ds' D' E; destruct D' as [|s' d' r' ds' Nd' D']; [reflexivity| | |].
  - exfalso. pose proof (base128_nonempty _ _ (proj1 (proj1 Nd'))). apply (f_equal (@length _)) in E. rewrite app_length in E. cbn [length] in E. lia.
  - exfalso. pose proof (base128_nonempty _ _ (proj1 (proj1 Nd))). apply (f_equal (@length _)) in E. rewrite app_length in E. cbn [length] in E. lia.
  - destruct (number_prefix _ _ _ _ _ _ (proj1 Nd) (proj1 Nd') E) as (-> & -> & ->). f_equal. exact (IH _ _ D' eq_refl).
Qed.
Lemma chunk_fun f pos ds next ds' next' : chunk f pos ds next -> chunk f pos ds' next' -> ds = ds' /\ next = next'.
Proof.
  intros (s & n & body & link & Hl & Nn & Ev & _ & Ll & D & _ & ->) (s' & n' & body' & link' & Hl' & Nn' & Ev' & _ & Ll' & D' & _ & ->).
  destruct (lies_number _ _ _ _ _ _ (lies_front _ _ _ _ Hl) Nn (lies_front _ _ _ _ Hl') Nn') as [<- <-].
  assert (length body = length body') as Lb by (unfold zlen in *; lia).
  apply lies_back, lies_skipn in Hl. apply lies_back, lies_skipn in Hl'. destruct Hl as (_ & t & E), Hl' as (_ & t' & E'). rewrite E in E'. rewrite <- !app_assoc in E'.
  assert (body = body' /\ link ++ t = link' ++ t') as [<- E2].
  { apply app_same; assumption. }
  assert (link = link') as <-.
  { apply app_same in E2; [apply E2|congruence]. }
  split; [|reflexivity]. exact (deltas_fun _ _ D _ _ D' eq_refl).
Qed.
Lemma misfit_chunk f pos ds next : misfit f pos -> ~ chunk f pos ds next.
Proof.
  intros (s & n & Hl & Nn & X) (s' & n' & body & link & Hl' & Nn' & Ev & Lb & _). destruct (lies_number _ _ _ _ _ _ Hl Nn (lies_front _ _ _ _ Hl') Nn') as [_ <-]. unfold zlen in *. lia.
Qed.
Lemma reading_nil f ps pos cur : reading f ps [] pos cur -> r_i ps = length (r_docids ps) /\ r_nextpos ps = pos /\ r_current ps = cur.
Proof.
  intros (L & ids' & E & W). symmetry in E. apply app_eq_nil in E. destruct E as [E ->]. split.
  - apply (f_equal (@length _)) in E. rewrite skipn_length in E. cbn [length] in E. lia.
  - inversion W as [|p c ds next ids p' c' C W' E1]; subst; [auto|]. exfalso. apply app_eq_nil in H. exact (chunk_nonempty _ _ _ _ _ C (proj1 H)).
Qed.
Lemma skipn_here {A} (l : list A) : forall i x, nth_error l i = Some x -> skipn i l = x :: skipn (S i) l.
Proof. induction l as [|a l IH]; intros [|i] x E; cbn [nth_error] in E; try discriminate; [injection E as <-; reflexivity|]. exact (IH i x E). Qed.
(** What comes next. *)
Lemma next_cases f ps : Forall is_byte f -> (r_i ps <= length (r_docids ps))%nat ->
  (exists x ps', posts_next ps f = Ok (x, ps') /\ (r_i ps' <= length (r_docids ps'))%nat /\
     forall y ids pos cur, reading f ps (y :: ids) pos cur <-> y = x /\ reading f ps' ids pos cur) \/
  (reading f ps [] (r_nextpos ps) (r_current ps) /\ (forall y ids pos cur, ~ reading f ps (y :: ids) pos cur) /\ (
     (r_nextpos ps = -1)%Z /\ posts_next ps f = Err EOF \/
     misfit f (r_nextpos ps) /\ posts_next ps f = Panic \/
     (r_nextpos ps <> -1)%Z /\ ~ misfit f (r_nextpos ps) /\ (forall ds next, ~ chunk f (r_nextpos ps) ds next) /\ posts_next ps f = Err EOther)).
Proof.
  intros Fb L. unfold posts_next. destruct (Nat.eqb_spec (r_i ps) (length (r_docids ps))) as [Ei|Ei].
  - assert (Sk : skipn (r_i ps) (r_docids ps) = []) by (rewrite Ei; apply skipn_all).
    assert (R : reading f ps [] (r_nextpos ps) (r_current ps)) by (split; [exact L|]; exists []; rewrite Sk; split; [reflexivity|constructor]).
    assert (N0 : (forall ds next, ~ chunk f (r_nextpos ps) ds next) -> forall y ids pos cur, ~ reading f ps (y :: ids) pos cur).
    { intros Nc y ids pos cur (_ & ids' & E & W). rewrite Sk in E. cbn [app] in E. subst ids'. inversion W as [|p c ds' next' ids0 p' c' C' W' E0]; subst. exact (Nc _ _ C'). }
    destruct (Z.eqb_spec (r_nextpos ps) (-1)) as [E1|E1].
    { right. split; [exact R|]. split; [|left; auto]. apply N0. rewrite E1. intros ds next (s & n & body & link & (a & b & _ & La) & _). unfold zlen in La. lia. }
    destruct (read_next_cases ps f Fb) as [(ds & next & C & ->)|[[M ->]|(Nm & Nc & ->)]]; cbn [bind].
    2:{ right. split; [exact R|]. split; [|right; left; auto]. apply N0. intros ds next. apply misfit_chunk, M. }
    2:{ right. split; [exact R|]. split; [|right; right; auto]. apply N0, Nc. }
    left. pose proof (chunk_nonempty _ _ _ _ (r_current ps) C) as Ne. destruct (ids_from (r_current ps) ds) as [|x l] eqn:El; [congruence|].
    cbn [r_docids r_i nth_error]. eexists x, _. split; [reflexivity|]. cbn [r_i r_docids r_nextpos r_current]. split; [cbn [length]; lia|].
    intros y ids pos cur. unfold reading. cbn [r_i r_docids r_nextpos r_current]. rewrite Sk. cbn [app skipn]. split.
    + intros (_ & ids' & <- & W). inversion W as [|p c ds' next' ids0 p' c' C' W' E0]; subst.
      destruct (chunk_fun _ _ _ _ _ _ C C') as [<- <-]. rewrite El in *. cbn [app] in H. injection H as <- <-. split; [reflexivity|]. split; [cbn [length]; lia|]. eauto.
    + intros (-> & _ & ids' & -> & W). split; [exact L|]. eexists. split; [reflexivity|]. change (x :: l ++ ids') with ((x :: l) ++ ids'). rewrite <- El in *.
      eapply walk_chunk; eassumption.
  - left. destruct (nth_error (r_docids ps) (r_i ps)) as [x|] eqn:Ex; [|apply nth_error_None in Ex; lia]. cbn [bind]. rewrite Ex.
    eexists x, _. split; [reflexivity|]. cbn [r_i r_docids r_nextpos r_current]. split; [lia|]. intros y ids pos cur. unfold reading. cbn [r_i r_docids r_nextpos r_current].
    rewrite (skipn_here _ _ _ Ex). cbn [app]. split.
    + intros (_ & ids' & E & W). injection E as -> ->. split; [reflexivity|]. split; [lia|]. eauto.
    + intros (-> & _ & ids' & -> & W). split; [lia|]. eauto.
Qed.
