(** Reading arbitrary bytes. *)
From Verif Require Import Model.Base Model.Varint Model.Path Model.Fnames Spec.Paths Spec.Damaged Proof.Tactics Proof.VarintP Proof.CutP Proof.FnamesP.
Local Open Scope N_scope.

(** * Numbers *)
Lemma base128_nonempty s v : base128 s v -> (1 <= length s)%nat.
Proof. destruct 1; cbn [length]; lia. Qed.
Lemma base128_fun s v : base128 s v -> forall v', base128 s v' -> v = v'.
Proof.
  induction 1 as [b L|b s v L H IH]; intros v' H'; inversion H'; subst; try lia.
  f_equal. f_equal. apply IH. assumption.
Qed.
(** No number is a beginning of another. *)
Lemma base128_prefix s v : base128 s v -> forall t s' v' t', base128 s' v' -> s ++ t = s' ++ t' -> s = s' /\ t = t'.
Proof.
  induction 1 as [b L|b s v L H IH]; intros t s' v' t' H' E; inversion H'; subst; cbn [app] in E; injection E as E1 E; subst; try lia.
  - auto.
  - match goal with B : base128 ?x ?y, E : s ++ t = ?x ++ t' |- _ => destruct (IH _ _ _ _ B E) as [-> ->] end. auto.
Qed.
Lemma number_fun s v v' : number s v -> number s v' -> v = v'.
Proof. intros [H _] [H' _]. exact (base128_fun _ _ H _ H'). Qed.
Lemma number_prefix s v t s' v' t' : number s v -> number s' v' -> s ++ t = s' ++ t' -> s = s' /\ t = t' /\ v = v'.
Proof.
  intros [H _] [H' _] E. destruct (base128_prefix _ _ H _ _ _ _ H' E) as [-> ->]. split; [reflexivity|]. split; [reflexivity|].
  exact (base128_fun _ _ H _ H').
Qed.

Lemma read_aux k : forall i r acc v r', (k + i = 10)%nat -> acc < 2 ^ (7 * N.of_nat i) ->
  (read_uvarint_aux k r acc (7 * N.of_nat i) = Ok (v, r') <->
   exists s w, r = s ++ r' /\ base128 s w /\ (length s <= k)%nat /\ v = acc + w * 2 ^ (7 * N.of_nat i) /\ v < 2 ^ 64).
Proof.
  induction k as [|k IH]; intros i r acc v r' Hk La; cbn [read_uvarint_aux].
  { split; [discriminate|]. intros (s & w & _ & B & L & _). apply base128_nonempty in B. lia. }
  destruct r as [|b r].
  { split; [discriminate|]. intros (s & w & E & B & _). apply base128_nonempty in B. destruct s; [cbn [length] in B; lia|discriminate]. }
  destruct (N.ltb_spec b 128) as [Lb|Lb].
  - assert (Q : forall s w, b :: r = s ++ r' -> base128 s w -> s = [b] /\ w = b /\ r = r').
    { intros s w E B. destruct B as [c L|c s w L B]; cbn [app] in E; injection E as -> E; [auto|lia]. }
    destruct ((k =? 0)%nat && (1 <? b)) eqn:E0.
    + split; [discriminate|]. intros (s & w & E & B & _ & -> & L). destruct (Q _ _ E B) as (_ & -> & _).
      apply andb_true_iff in E0. destruct E0 as [E0 E1]. apply Nat.eqb_eq in E0. apply N.ltb_lt in E1.
      assert (i = 9)%nat as -> by lia. change (2 ^ (7 * N.of_nat 9)) with 9223372036854775808 in L. change (2 ^ 64) with 18446744073709551616 in L. lia.
    + assert (b * 2 ^ (7 * N.of_nat i) < 2 ^ 64 /\ acc + b * 2 ^ (7 * N.of_nat i) < 2 ^ 64) as [L1 L2].
      { change (2 ^ 64) with 18446744073709551616. apply andb_false_iff in E0. destruct (Nat.eq_dec k 0) as [K|K].
        - destruct E0 as [E0|E0]; [apply Nat.eqb_neq in E0; lia|]. apply N.ltb_ge in E0. assert (i = 9)%nat as -> by lia.
          change (2 ^ (7 * N.of_nat 9)) with 9223372036854775808 in *. lia.
        - assert (2 ^ (7 * N.of_nat i) <= 2 ^ 56) as P by (apply N.pow_le_mono_r; lia). change (2 ^ 56) with 72057594037927936 in P.
          generalize dependent (2 ^ (7 * N.of_nat i)). intros. nia. }
      rewrite acc_step by assumption. split.
      * intros E. injection E as <- <-. exists [b], b. split; [reflexivity|]. split; [constructor; exact Lb|]. cbn [length]. split; [lia|]. split; [reflexivity|exact L2].
      * intros (s & w & E & B & _ & -> & _). destruct (Q _ _ E B) as (_ & -> & ->). reflexivity.
  - rewrite land127. pose proof (N.mod_upper_bound b 128 ltac:(discriminate)) as Lm.
    assert (Q : (exists s w, b :: r = s ++ r' /\ base128 s w /\ (length s <= S k)%nat /\ v = acc + w * 2 ^ (7 * N.of_nat i) /\ v < 2 ^ 64) <->
                exists s w, r = s ++ r' /\ base128 s w /\ (length s <= k)%nat /\ v = acc + (b mod 128 + 128 * w) * 2 ^ (7 * N.of_nat i) /\ v < 2 ^ 64).
    { split.
      - intros (s & w & E & B & L & Ev & Lv). destruct B as [c L'|c s w L' B]; cbn [app] in E; injection E as -> E; [lia|]. cbn [length] in L.
        exists s, w. repeat split; auto; lia.
      - intros (s & w & -> & B & L & Ev & Lv). exists (b :: s), (b mod 128 + 128 * w). split; [reflexivity|]. split; [constructor; assumption|].
        cbn [length]. split; [lia|auto]. }
    rewrite Q. clear Q. destruct k as [|k].
    { cbn [read_uvarint_aux]. split; [discriminate|]. intros (s & w & _ & B & L & _). apply base128_nonempty in B. lia. }
    assert (2 ^ (7 * N.of_nat i) <= 2 ^ 56) as P by (apply N.pow_le_mono_r; lia). change (2 ^ 56) with 72057594037927936 in P.
    pose proof (pow7_pos i) as P1.
    rewrite acc_step; [|exact La|generalize dependent (2 ^ (7 * N.of_nat i)); intros; nia].
    replace (7 * N.of_nat i + 7) with (7 * N.of_nat (S i)) by lia.
    rewrite (IH (S i) r _ v r'); [|lia|rewrite pow7_S; generalize dependent (2 ^ (7 * N.of_nat i)); intros; nia].
    rewrite pow7_S. split; intros (s & w & E & B & L & -> & Lv); exists s, w; repeat split; auto; clear -Lv;
      generalize dependent (2 ^ (7 * N.of_nat i)); generalize (b mod 128); intros; lia.
Qed.
Theorem read_number r v r' : read_uvarint r = Ok (v, r') <-> exists s, r = s ++ r' /\ number s v.
Proof.
  unfold read_uvarint. rewrite (read_aux 10 0 r 0 v r') by (cbn; lia). change (2 ^ (7 * N.of_nat 0)) with 1. unfold number. split.
  - intros (s & w & E & B & L & -> & Lv). exists s. rewrite N.mul_1_r in *. cbn [N.add] in *. auto.
  - intros (s & E & B & L & Lv). exists s, v. rewrite N.mul_1_r. auto.
Qed.
Lemma read_number32 r v r' : read_uvarint32 r = Ok (v, r') <-> exists s, r = s ++ r' /\ number32 s v.
Proof.
  unfold read_uvarint32, number32. split.
  - destruct (read_uvarint r) as [[w t]| | |] eqn:E; cbn [bind]; try discriminate. apply read_number in E. destruct E as (s & -> & N1).
    destruct (N.leb_spec 4294967296 w); [discriminate|]. intros X. injection X as -> ->. exists s. repeat split; auto; apply N1.
  - intros (s & -> & N1 & L). assert (read_uvarint (s ++ r') = Ok (v, r')) as -> by (apply read_number; exists s; auto). cbn [bind].
    change (2 ^ 32) with 4294967296 in L. destruct (N.leb_spec 4294967296 v); [lia|reflexivity].
Qed.
Lemma read_number32_not r : read_uvarint32 r <> Panic /\ read_uvarint32 r <> Loop.
Proof.
  unfold read_uvarint32, read_uvarint. destruct (uvarint_err max_varint_len64 r 0 0) as [(v & r' & -> & _)|(e & ->)]; cbn [bind]; [|split; discriminate].
  destruct (_ <=? v); split; discriminate.
Qed.

(** * The file of names *)
Definition key (nd : fname) : bytes * N := (n_name nd, n_parent nd).
Lemma map_upd {A B} (g : A -> B) i x l : map g (upd i x l) = upd i (g x) (map g l).
Proof. revert i. induction l as [|a l IH]; intros [|i]; cbn [upd map]; congruence. Qed.
Lemma read_n_iff n r name r' : read_n n r = Ok (name, r') <-> r = name ++ r' /\ nlen name = n.
Proof.
  unfold read_n, nlen. destruct (N.leb_spec n (N.of_nat (length r))) as [L|L].
  - split.
    + intros E. injection E as <- <-. rewrite firstn_skipn. split; [reflexivity|]. rewrite firstn_length. lia.
    + intros [-> <-]. rewrite Nnat.Nat2N.id, firstn_app, skipn_app, Nat.sub_diag, firstn_all, skipn_all. cbn [firstn skipn]. rewrite app_nil_r. reflexivity.
  - split; [discriminate|]. intros [-> <-]. rewrite app_length in L. lia.
Qed.
Lemma read_n_not n r : read_n n r <> Panic /\ read_n n r <> Loop.
Proof. unfold read_n. destruct (_ <=? _); split; discriminate. Qed.

Lemma entries_prefix r es : entries r es -> forall es', entries r es' -> (length es <= length es')%nat -> es = firstn (length es) es'.
Proof.
  induction 1 as [r|s1 name s2 parent r es N1 N2 H IH]; intros es' H' L; [reflexivity|].
  inversion H' as [|s1' name' s2' parent' r' es1 N1' N2' H1 E]; subst; cbn [length] in L; [lia|]. cbn [length firstn].
  destruct (number_prefix _ _ _ _ _ _ (proj1 N1') (proj1 N1) E) as (-> & E1 & En).
  assert (name' = name /\ s2' ++ r' = s2 ++ r) as [-> E2].
  { assert (length name' = length name) as El by (unfold nlen in En; lia). split.
    - apply (f_equal (firstn (length name'))) in E1. rewrite El in E1 at 2. rewrite !firstn_app, !firstn_all, !Nat.sub_diag in E1. cbn [firstn] in E1. rewrite !app_nil_r in E1. exact E1.
    - apply (f_equal (skipn (length name'))) in E1. rewrite El in E1 at 2. rewrite !skipn_app, !skipn_all, !Nat.sub_diag in E1. cbn [skipn app] in E1. exact E1. }
  destruct (number_prefix _ _ _ _ _ _ (proj1 N2') (proj1 N2) E2) as (-> & -> & ->). f_equal. apply IH; [assumption|lia].
Qed.
Lemma entries_firstn r es : entries r es -> forall n, entries r (firstn n es).
Proof.
  induction 1 as [r|s1 name s2 parent r es N1 N2 H IH]; intros [|n]; cbn [firstn]; [apply entries_none|apply entries_none|apply entries_none|apply entries_one; auto].
Qed.

Lemma loop_cases todo : forall i d r, length d = (i + todo)%nat -> exists es, entries r es /\ (length es <= todo)%nat /\ Forall (fun e => snd e < nlen d) es /\
  ((length es = todo /\ exists d', read_fnames_loop todo i d r = Ok d' /\ map key d' = firstn i (map key d) ++ es) \/
   ((length es < todo)%nat /\ exists e, entries r (es ++ [e]) /\ nlen d <= snd e /\ read_fnames_loop todo i d r = Panic) \/
   ((length es < todo)%nat /\ (forall e, ~ entries r (es ++ [e])) /\ exists e, read_fnames_loop todo i d r = Err e)).
Proof.
  induction todo as [|todo IH]; intros i d r Ld; cbn [read_fnames_loop].
  { exists []. split; [constructor|]. split; [reflexivity|]. split; [constructor|]. left. split; [reflexivity|]. exists d. split; [reflexivity|].
    rewrite app_nil_r, firstn_all2; [reflexivity|]. rewrite map_length. lia. }
  assert (Stop : (forall e, ~ entries r [e]) -> forall X : result fnames, (exists e, X = Err e) -> exists es, entries r es /\ (length es <= S todo)%nat /\ Forall (fun e => snd e < nlen d) es /\
    ((length es = S todo /\ exists d', X = Ok d' /\ map key d' = firstn i (map key d) ++ es) \/
     ((length es < S todo)%nat /\ exists e, entries r (es ++ [e]) /\ nlen d <= snd e /\ X = Panic) \/
     ((length es < S todo)%nat /\ (forall e, ~ entries r (es ++ [e])) /\ exists e, X = Err e))).
  { intros Z X EX. exists []. split; [constructor|]. cbn [length app]. split; [lia|]. split; [constructor|]. right. right. split; [lia|]. auto. }
  destruct (read_uvarint32 r) as [[len r1]|e| |] eqn:E1; cbn [bind].
  2:{ apply Stop; [|eauto]. intros e0 H. inversion H; subst. assert (read_uvarint32 (s1 ++ name ++ s2 ++ r0) = Ok (nlen name, name ++ s2 ++ r0)) as X by (apply read_number32; eauto). congruence. }
  2,3: exfalso; apply read_number32_not in E1; exact E1.
  apply read_number32 in E1. destruct E1 as (s1 & -> & N1).
  destruct (read_n len r1) as [[name r2]|e| |] eqn:E2; cbn [bind].
  2:{ apply Stop; [|eauto]. intros e0 H. inversion H; subst.
      match goal with N : number32 ?s (nlen ?n), E : ?s ++ _ = _ |- _ => destruct (number_prefix _ _ _ _ _ _ (proj1 N) (proj1 N1) E) as (_ & <- & <-) end.
      assert (Y : forall a t, read_n (nlen a) (a ++ t) = Ok (a, t)) by (intros; apply read_n_iff; auto). rewrite Y in E2. discriminate. }
  2,3: exfalso; apply read_n_not in E2; exact E2.
  apply read_n_iff in E2. destruct E2 as [-> <-].
  destruct (read_uvarint32 r2) as [[parent r3]|e| |] eqn:E3; cbn [bind].
  2:{ apply Stop; [|eauto]. intros e0 H. inversion H as [|s1' name' s2' parent' r' es1 N1' N2' H1 E]; subst.
      destruct (number_prefix _ _ _ _ _ _ (proj1 N1') (proj1 N1) E) as (_ & E' & En).
      assert (s2' ++ r' = r2) as <-.
      { assert (length name' = length name) as El by (unfold nlen in En; lia).
        apply (f_equal (skipn (length name'))) in E'. rewrite El in E' at 2. rewrite !skipn_app, !skipn_all, !Nat.sub_diag in E'. cbn [skipn app] in E'. exact E'. }
      assert (read_uvarint32 (s2' ++ r') = Ok (parent', r')) as X by (apply read_number32; eauto). congruence. }
  2,3: exfalso; apply read_number32_not in E3; exact E3.
  apply read_number32 in E3. destruct E3 as (s2 & -> & N2).
  assert (One : entries (s1 ++ name ++ s2 ++ r3) [(name, parent)]) by (apply entries_one; [assumption|assumption|apply entries_none]).
  destruct (nth_error d i) as [nd|] eqn:En; [|apply nth_error_None in En; lia].
  set (d1 := upd i (MkFname parent name (n_children nd)) d).
  assert (Ld1 : length d1 = length d) by apply upd_length.
  destruct (nth_error d1 (N.to_nat parent)) as [pn|] eqn:Ep.
  2:{ exists []. split; [constructor|]. cbn [length app]. split; [lia|]. split; [constructor|]. right. left. split; [lia|].
      exists (name, parent). split; [exact One|]. split; [|reflexivity]. apply nth_error_None in Ep. cbn [snd]. unfold nlen. lia. }
  set (d2 := upd (N.to_nat parent) _ d1).
  assert (Lp : parent < nlen d). { assert (nth_error d1 (N.to_nat parent) <> None) as Z by congruence. apply nth_error_Some in Z. unfold nlen. lia. }
  assert (Ld2 : length d2 = length d) by (unfold d2; rewrite upd_length; exact Ld1).
  assert (K : map key d2 = upd i (name, parent) (map key d)).
  { unfold d2. rewrite map_upd, upd_same; [unfold d1; rewrite map_upd; reflexivity|]. rewrite nth_error_map, Ep. reflexivity. }
  assert (K1 : firstn (S i) (map key d2) = firstn i (map key d) ++ [(name, parent)]).
  { rewrite K. clear -En. generalize (f_equal (option_map key) En). rewrite <- nth_error_map. cbn [option_map]. generalize (key nd). intros kd. generalize (map key d). clear.
    induction i as [|i IH]; intros [|a l] E; cbn [nth_error] in E; try discriminate; cbn [upd firstn app]; [reflexivity|]. f_equal. apply IH. exact E. }
  destruct (IH (S i) d2 r3 ltac:(lia)) as (es & He & Le & Fe & Cs).
  assert (nlen d2 = nlen d) as Nd by (unfold nlen; rewrite Ld2; reflexivity). rewrite Nd in *.
  exists ((name, parent) :: es). split; [apply entries_one; assumption|]. cbn [length]. split; [lia|]. split; [constructor; assumption|].
  destruct Cs as [(L & d' & Ed & Kd)|[(L & e & Ee & Lp' & Ed)|(L & Ne & e & Ed)]].
  - left. split; [lia|]. exists d'. split; [exact Ed|]. rewrite Kd, K1, <- app_assoc. reflexivity.
  - right. left. split; [lia|]. exists e. cbn [app]. split; [apply entries_one; assumption|]. split; assumption.
  - right. right. split; [lia|]. split; [|eauto]. intros e' H. cbn [app] in H.
    inversion H as [|s1' name' s2' parent' r' es1 N1' N2' H1 E]; subst.
    destruct (number_prefix _ _ _ _ _ _ (proj1 N1') (proj1 N1) E) as (_ & E' & _). apply app_inv_head in E'.
    destruct (number_prefix _ _ _ _ _ _ (proj1 N2') (proj1 N2) E') as (_ & -> & _). exact (Ne _ H1).
Qed.
Lemma nlen_snoc {A} (l : list A) x : nlen (l ++ [x]) = nlen l + 1.
Proof. unfold nlen. rewrite app_length. cbn [length]. lia. Qed.
(** Opening the file of names: what arbitrary bytes give. *)
Theorem read_names f :
  (forall es, names_good f es -> exists d, read_fnames f = Ok d /\ map key d = es) /\
  (names_bad f -> read_fnames f = Panic) /\
  ((forall es, ~ names_good f es) -> ~ names_bad f -> exists e, read_fnames f = Err e).
Proof.
  assert (P : forall s r v, f = s ++ r -> number32 s v -> read_fnames f = read_fnames_loop (N.to_nat v) 0 (repeat (MkFname 0 [] []) (N.to_nat v)) r).
  { intros s r v -> Nv. unfold read_fnames. assert (read_uvarint32 (s ++ r) = Ok (v, r)) as -> by (apply read_number32; eauto). reflexivity. }
  assert (Q : forall s r v, f = s ++ r -> number32 s v -> exists es, entries r es /\ nlen es <= v /\ Forall (fun e => snd e < v) es /\
    ((nlen es = v /\ exists d', read_fnames f = Ok d' /\ map key d' = es) \/
     (nlen es < v /\ exists e, entries r (es ++ [e]) /\ v <= snd e /\ read_fnames f = Panic) \/
     (nlen es < v /\ (forall e, ~ entries r (es ++ [e])) /\ exists e, read_fnames f = Err e))).
  { intros s r v E Nv. rewrite (P s r v E Nv). destruct (loop_cases (N.to_nat v) 0 (repeat (MkFname 0 [] []) (N.to_nat v)) r) as (es & H1 & H2 & H3 & H4).
    { apply repeat_length. }
    assert (nlen (repeat (MkFname 0 [] []) (N.to_nat v)) = v) as Lv by (unfold nlen; rewrite repeat_length; lia). rewrite Lv in *.
    exists es. split; [exact H1|]. split; [unfold nlen; lia|]. split; [exact H3|]. unfold nlen.
    destruct H4 as [(L & X)|[(L & X)|(L & X)]]; [left|right; left|right; right]; (split; [lia|exact X]). }
  split; [|split].
  - intros es [(s & r & E & Nv & He & _) Fp]. destruct (Q s r (nlen es) E Nv) as (es' & He' & Le & _ & Cs).
    assert (es' = firstn (length es') es) as Epre by (apply (entries_prefix r); auto; unfold nlen in Le; lia).
    destruct Cs as [(L & d & Ed & K)|[(L & e & Ee & Lp & _)|(L & Ne & _)]].
    + exists d. split; [exact Ed|]. rewrite K, Epre. apply firstn_all2. unfold nlen in L. lia.
    + exfalso. assert (es' ++ [e] = firstn (length (es' ++ [e])) es) as X.
      { apply (entries_prefix r); auto. rewrite app_length. cbn [length]. unfold nlen in L. lia. }
      assert (In e es) as Ie. { rewrite <- (firstn_skipn (length (es' ++ [e])) es), <- X. apply in_app_iff. left. apply in_app_iff. right. left. reflexivity. }
      rewrite Forall_forall in Fp. specialize (Fp e Ie). cbn beta in Fp. lia.
    + exfalso. assert (exists e, nth_error es (length es') = Some e) as [e En].
      { destruct (nth_error es (length es')) as [e|] eqn:En; [eauto|]. apply nth_error_None in En. unfold nlen in L. lia. }
      apply (Ne e). assert (es' ++ [e] = firstn (S (length es')) es) as ->; [|apply entries_firstn; exact He].
      apply nth_error_split in En. destruct En as (a & b & Eab & La). rewrite Eab, <- La in Epre. rewrite firstn_app, Nat.sub_diag, firstn_all in Epre. cbn [firstn] in Epre. rewrite app_nil_r in Epre.
      subst a. rewrite Eab. rewrite firstn_app, firstn_all2 by lia. replace (S (length es') - length es')%nat with 1%nat by lia. reflexivity.
  - intros (v & es & e & (s & r & E & Nv & He & Le) & Fe & Lp). destruct (Q s r v E Nv) as (es' & He' & Le' & Fe' & Cs).
    destruct Cs as [(L & d & Ed & K)|[(L & e' & Ee & Lp' & Ed)|(L & Ne & _)]]; [|exact Ed|]; exfalso.
    + rewrite nlen_snoc in Le. assert (es ++ [e] = firstn (length (es ++ [e])) es') as X.
      { apply (entries_prefix r); auto. rewrite app_length. cbn [length]. unfold nlen in *. lia. }
      assert (In e es') as Ie. { rewrite <- (firstn_skipn (length (es ++ [e])) es'), <- X. apply in_app_iff. left. apply in_app_iff. right. left. reflexivity. }
      rewrite Forall_forall in Fe'. specialize (Fe' e Ie). cbn beta in Fe'. lia.
    + rewrite nlen_snoc in Le. destruct (Nat.le_gt_cases (length (es ++ [e])) (length es')) as [L1|L1].
      * pose proof (entries_prefix r _ He _ He' L1) as X.
        assert (In e es') as Ie. { rewrite <- (firstn_skipn (length (es ++ [e])) es'), <- X. apply in_app_iff. left. apply in_app_iff. right. left. reflexivity. }
        rewrite Forall_forall in Fe'. specialize (Fe' e Ie). cbn beta in Fe'. lia.
      * pose proof (entries_prefix r _ He' _ He ltac:(lia)) as X.
        destruct (nth_error (es ++ [e]) (length es')) as [e0|] eqn:En; [|apply nth_error_None in En; lia].
        apply (Ne e0). assert (es' ++ [e0] = firstn (S (length es')) (es ++ [e])) as ->; [|apply entries_firstn; exact He].
        apply nth_error_split in En. destruct En as (a & b & Eab & La). rewrite Eab, <- La in X. rewrite firstn_app, Nat.sub_diag, firstn_all in X. cbn [firstn] in X. rewrite app_nil_r in X.
        subst a. rewrite Eab. rewrite firstn_app, firstn_all2 by lia. replace (S (length es') - length es')%nat with 1%nat by lia. reflexivity.
  - intros Ng Nb. destruct (read_uvarint32 f) as [[v r]|e| |] eqn:E.
    + apply read_number32 in E. destruct E as (s & Ef & Nv). destruct (Q s r v Ef Nv) as (es & He & Le & Fe & Cs).
      destruct Cs as [(L & d & Ed & K)|[(L & e & Ee & Lp & Ed)|(L & Ne & Ed)]]; [| |exact Ed]; exfalso.
      * apply (Ng es). split; [|rewrite L; exact Fe]. exists s, r. rewrite L. auto using N.le_refl.
      * apply Nb. exists v, es, e. split; [|auto]. exists s, r. split; [exact Ef|]. split; [exact Nv|]. split; [exact Ee|]. rewrite nlen_snoc. lia.
    + exists e. unfold read_fnames. rewrite E. reflexivity.
    + exfalso. apply read_number32_not in E. exact E.
    + exfalso. apply read_number32_not in E. exact E.
Qed.

Theorem read_names_inv f : (forall d, read_fnames f = Ok d -> names_good f (map key d)) /\ (read_fnames f = Panic -> names_bad f) /\ read_fnames f <> Loop.
Proof.
  unfold read_fnames. destruct (read_uvarint32 f) as [[v r]|e| |] eqn:E; cbn [bind].
  2:{ split; [discriminate|]. split; discriminate. }
  2,3: exfalso; apply read_number32_not in E; exact E.
  apply read_number32 in E. destruct E as (s & Ef & Nv).
  destruct (loop_cases (N.to_nat v) 0 (repeat (MkFname 0 [] []) (N.to_nat v)) r) as (es & H1 & H2 & H3 & H4).
  { apply repeat_length. }
  assert (nlen (repeat (MkFname 0 [] []) (N.to_nat v)) = v) as Lv by (unfold nlen; rewrite repeat_length; lia). rewrite Lv in *.
  destruct H4 as [(L & d & -> & Kd)|[(L & e & He & Lp & ->)|(L & _ & e & ->)]].
  - split; [|split; discriminate]. intros d' X. injection X as <-. cbn [firstn app] in Kd. rewrite Kd.
    assert (nlen es = v) as En by (unfold nlen; lia). split; [|rewrite En; exact H3]. exists s, r. rewrite En. auto using N.le_refl.
  - split; [discriminate|]. split; [|discriminate]. intros _. exists v, es, e. split; [|auto]. exists s, r. split; [exact Ef|]. split; [exact Nv|]. split; [exact He|].
    rewrite nlen_snoc. unfold nlen. lia.
  - split; [discriminate|]. split; discriminate.
Qed.

(** * Paths *)
Lemma climbs_lt es v ns : climbs es v ns -> v < nlen es.
Proof.
  destruct 1 as [E|v name parent ns E H C].
  - destruct es; [congruence|]. unfold nlen. cbn [length]. lia.
  - assert (nth_error es (N.to_nat v) <> None) as Z by congruence. apply nth_error_Some in Z. unfold nlen. lia.
Qed.
Lemma climbs_fun es v ns : climbs es v ns -> forall ns', climbs es v ns' -> ns = ns'.
Proof.
  induction 1 as [E|v name parent ns E H C IH]; intros ns' H'; inversion H'; subst; try congruence.
  match goal with X : nth_error _ _ = Some _ |- _ => rewrite H in X; injection X as <- <- end. f_equal. apply IH. assumption.
Qed.
(** The entries on the way are all different. *)
Lemma climbs_visits es v ns : climbs es v ns -> exists vs, length vs = S (length ns) /\ NoDup vs /\ incl vs (seq 0 (length es)) /\
  forall w, In w vs -> exists ns', climbs es (N.of_nat w) ns' /\ (length ns' <= length ns)%nat.
Proof.
  intros C. pose proof C as C0. induction C as [E|v name parent ns E H C IH].
  - exists [0%nat]. split; [reflexivity|]. split; [repeat constructor; intros []|]. split.
    + intros w [<-|[]]. apply in_seq. destruct es; [congruence|]. cbn [length]. lia.
    + intros w [<-|[]]. exists []. split; [exact C0|reflexivity].
  - destruct (IH C) as (vs & Lv & Nd & Iv & Cv). exists (N.to_nat v :: vs). split; [cbn [length]; lia|]. split; [|split].
    + constructor; [|exact Nd]. intros I. destruct (Cv _ I) as (ns' & C' & L). rewrite Nnat.N2Nat.id in C'.
      pose proof (climbs_fun _ _ _ C' _ C0) as ->. cbn [length] in L. lia.
    + intros w [<-|I]; [|exact (Iv w I)]. apply in_seq. apply climbs_lt in C0. unfold nlen in C0. lia.
    + intros w [<-|I].
      * rewrite Nnat.N2Nat.id. eauto.
      * destruct (Cv _ I) as (ns' & C' & L). exists ns'. split; [exact C'|]. cbn [length]. lia.
Qed.
Lemma climbs_short es v ns : climbs es v ns -> (length ns < length es)%nat.
Proof.
  intros C. destruct (climbs_visits _ _ _ C) as (vs & Lv & Nd & Iv & _). pose proof (NoDup_incl_length Nd Iv) as L. rewrite seq_length in L. lia.
Qed.
Section Names.
  Variables (d : fnames) (es : list (bytes * N)).
  Hypothesis K : map key d = es.
  Hypothesis Fp : Forall (fun e => snd e < nlen es) es.
  Lemma key_at v : nth_error es v = option_map key (nth_error d v).
  Proof. rewrite <- K. apply nth_error_map. Qed.
  Lemma key_len : length es = length d.
  Proof. rewrite <- K. apply map_length. Qed.
  Lemma walk_climbs v ns : climbs es v ns -> forall fuel, (length ns < fuel)%nat -> abs_walk fuel d v = Ok ns.
  Proof.
    induction 1 as [E|v name parent ns E H C IH]; intros [|fuel] L; cbn [length] in L; try lia; cbn [abs_walk].
    - pose proof K as K'. destruct d as [|nd d']; [exfalso; apply E; symmetry; exact K'|]. reflexivity.
    - rewrite key_at in H. destruct (nth_error d (N.to_nat v)) as [nd|]; [|discriminate]. injection H as <- <-.
      destruct (N.eqb_spec v 0); [congruence|]. rewrite IH by lia. reflexivity.
  Qed.
  Lemma walk_panics v : nlen es <= v -> forall fuel, abs_walk (S fuel) d v = Panic.
  Proof.
    intros L fuel. cbn [abs_walk]. assert (nth_error d (N.to_nat v) = None) as ->; [|reflexivity].
    apply nth_error_None. unfold nlen in L. rewrite key_len in L. lia.
  Qed.
  Lemma walk_result fuel : forall v, v < nlen es -> (exists ns, abs_walk fuel d v = Ok ns /\ climbs es v ns) \/ abs_walk fuel d v = Loop.
  Proof.
    induction fuel as [|fuel IH]; intros v L; [right; reflexivity|]. cbn [abs_walk].
    destruct (nth_error d (N.to_nat v)) as [nd|] eqn:E.
    2:{ apply nth_error_None in E. unfold nlen in L. rewrite key_len in L. lia. }
    assert (E' : nth_error es (N.to_nat v) = Some (key nd)) by (rewrite key_at, E; reflexivity).
    destruct (N.eqb_spec v 0) as [->|N0].
    - left. exists []. split; [reflexivity|]. constructor. intros ->. discriminate.
    - assert (n_parent nd < nlen es) as Lp.
      { rewrite Forall_forall in Fp. exact (Fp _ (nth_error_In _ _ E')). }
      destruct (IH _ Lp) as [(ns & -> & C)| ->]; [left|right; reflexivity]. cbn [bind]. eexists. split; [reflexivity|].
      exact (climbs_up _ _ _ _ _ N0 E' C).
  Qed.
  Theorem abs_found v ns : climbs es v ns -> fn_abs d v = Ok (path_up ns).
  Proof.
    intros C. unfold fn_abs. rewrite (walk_climbs _ _ C) by (pose proof (climbs_short _ _ _ C); rewrite key_len in *; lia). cbn [bind]. f_equal.
    rewrite reverse_parts_rev. unfold path_up. destruct ns as [|n0 ns]; [reflexivity|].
    destruct (rev (n0 :: ns)) as [|n1 l] eqn:E; [apply (f_equal (@length _)) in E; rewrite rev_length in E; discriminate|]. clear -l.
    revert n1. induction l as [|n2 l IH]; intros n1; cbn [join_sep map concat app]; [rewrite app_nil_r; reflexivity|].
    change (sep :: n1 ++ sep :: join_sep (n2 :: l) = 47 :: n1 ++ concat (map (cons 47) (n2 :: l))). rewrite IH. reflexivity.
  Qed.
  Theorem abs_panics v : nlen es <= v -> fn_abs d v = Panic.
  Proof. intros L. unfold fn_abs. rewrite (walk_panics _ L). reflexivity. Qed.
  (** More rounds would not help. *)
  Theorem abs_endless v : v < nlen es -> (forall ns, ~ climbs es v ns) -> fn_abs d v = Loop /\ forall fuel, abs_walk fuel d v = Loop.
  Proof.
    intros L Nc. assert (W : forall fuel, abs_walk fuel d v = Loop) by (intros fuel; destruct (walk_result fuel v L) as [(ns & _ & C)| ->]; [destruct (Nc _ C)|reflexivity]).
    split; [|exact W]. unfold fn_abs. rewrite W. reflexivity.
  Qed.
End Names.
