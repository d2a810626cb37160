(** What is in a set. *)
From Verif Require Import Model.Base Model.Bloom Model.BloomOnes Spec.Bits Proof.Tactics Proof.BloomP.
Local Open Scope N_scope.

Lemma is_zero_spec d : is_zero d = true <-> forall x, In x d -> x = 0.
Proof.
  induction d as [|b d IH]; cbn [is_zero In]; [split; [intros _ x []|reflexivity]|].
  destruct (N.eqb_spec b 0) as [->|Ne]; cbn [negb].
  - rewrite IH. split; [intros A x [<-|Hx]; auto|auto].
  - split; [discriminate|]. intros A. exfalso. apply Ne, A. left. reflexivity.
Qed.
Lemma member_in d i : member d i = true -> (i < 8 * length d)%nat.
Proof.
  unfold member. intros T. destruct (Nat.lt_ge_cases (i / 8) (length d)) as [L|L]; [pose proof (Nat.div_mod i 8); lia|].
  rewrite nth_overflow, N.bits_0 in T by exact L. discriminate.
Qed.
Lemma in_members d i : In i (members d) <-> member d i = true.
Proof. unfold members. rewrite filter_In, in_seq. split; [tauto|]. intros T. pose proof (member_in d i T). split; [lia|exact T]. Qed.
Lemma zero_members d : Forall (fun x => x < 256) d -> (is_zero d = true <-> members d = []).
Proof.
  intros B. rewrite is_zero_spec. split.
  - intros A. destruct (members d) as [|i l] eqn:E; [reflexivity|]. assert (M : member d i = true) by (apply in_members; rewrite E; left; reflexivity).
    pose proof (member_in d i M) as L. unfold member in M. rewrite (A (nth (i / 8) d 0)), N.bits_0 in M; [discriminate|].
    apply nth_In. apply Nat.div_lt_upper_bound; lia.
  - intros E x Hx. destruct (In_nth d x 0 Hx) as (j & Lj & Ej). pose proof (proj1 (Forall_forall _ _) B x Hx) as Bx. cbn beta in Bx.
    apply N.bits_inj. intros m. rewrite N.bits_0. destruct (N.testbit x m) eqn:T; [|reflexivity]. exfalso.
    destruct (N.lt_ge_cases m 8) as [Lm|Lm].
    + assert (M : In (j * 8 + N.to_nat m)%nat (members d)); [|rewrite E in M; destruct M].
      apply in_members. unfold member. rewrite Nat.div_add_l, (Nat.div_small (N.to_nat m)), Nat.add_0_r, Ej by lia.
      rewrite Nat.add_comm, Nat.mod_add, Nat.mod_small by lia. rewrite N2Nat.id. exact T.
    + destruct (N.eq_dec x 0) as [->|Nx]; [rewrite N.bits_0 in T; discriminate|]. rewrite N.bits_above_log2 in T; [discriminate|].
      apply N.log2_lt_pow2; [lia|]. apply N.lt_le_trans with (2 ^ 8); [exact Bx|]. apply N.pow_le_mono_r; lia.
Qed.

Lemma byte_ones_spec b i : forall n j dst, (n + j = 8)%nat ->
  byte_ones n b i j dst = dst ++ filter (fun x => N.testbit b (N.of_nat (x - i * 8))) (seq (i * 8 + j) n).
Proof.
  induction n as [|n IH]; intros j dst L; cbn [byte_ones seq filter]; [rewrite app_nil_r; reflexivity|].
  rewrite mask, land_pow, negb_involutive by lia. rewrite IH by lia.
  replace (i * 8 + j - i * 8)%nat with j by lia. replace (i * 8 + S j)%nat with (S (i * 8 + j)) by lia.
  destruct (N.testbit b (N.of_nat j)); [rewrite <- app_assoc; reflexivity|reflexivity].
Qed.
Lemma filter_ext_in' {A} (f g : A -> bool) l : (forall x, In x l -> f x = g x) -> filter f l = filter g l.
Proof. induction l as [|a l IH]; intros H; cbn [filter]; [reflexivity|]. rewrite (H a) by (left; reflexivity). rewrite IH; [reflexivity|]. intros x Hx. apply H. right. exact Hx. Qed.
Lemma bp_list_spec : forall d i dst, bp_list d i dst = dst ++ filter (fun x => member d (x - i * 8)) (seq (i * 8) (8 * length d)).
Proof.
  induction d as [|b d IH]; intros i dst; cbn [bp_list].
  - cbn. rewrite app_nil_r. reflexivity.
  - replace (8 * length (b :: d))%nat with (8 + 8 * length d)%nat by (cbn [length]; lia). rewrite seq_app, filter_app.
    assert (E1 : filter (fun x => member (b :: d) (x - i * 8)) (seq (i * 8) 8) = filter (fun x => N.testbit b (N.of_nat (x - i * 8))) (seq (i * 8) 8)).
    { apply filter_ext_in'. intros x Hx. apply in_seq in Hx. unfold member. rewrite Nat.div_small, Nat.mod_small by lia. reflexivity. }
    assert (E2 : filter (fun x => member (b :: d) (x - i * 8)) (seq (i * 8 + 8) (8 * length d)) = filter (fun x => member d (x - S i * 8)) (seq (S i * 8) (8 * length d))).
    { replace (S i * 8)%nat with (i * 8 + 8)%nat by lia. apply filter_ext_in'. intros x Hx. apply in_seq in Hx. unfold member.
      replace (x - i * 8)%nat with ((x - (i * 8 + 8)) + 1 * 8)%nat by lia. rewrite Nat.div_add, Nat.mod_add by lia. rewrite Nat.add_1_r. reflexivity. }
    rewrite E1, E2. destruct (N.eqb_spec b 0) as [->|Ne].
    + assert (Z : forall l, filter (fun x => N.testbit 0 (N.of_nat (x - i * 8))) l = []).
      { induction l as [|a l IHl]; cbn [filter]; [reflexivity|]. rewrite N.bits_0. exact IHl. }
      rewrite Z, IH. reflexivity.
    + rewrite IH, byte_ones_spec by reflexivity. rewrite Nat.add_0_r, <- app_assoc. reflexivity.
Qed.
Lemma ones_members d dst : bp_list d 0 dst = dst ++ members d.
Proof.
  rewrite bp_list_spec. f_equal. unfold members. cbn [Nat.mul]. apply filter_ext_in'. intros x _. rewrite Nat.sub_0_r. reflexivity.
Qed.

Lemma put_ones_from_spec f hh n : forall i dst, (n = O \/ bits_of f <> 0) -> (N.to_nat i + n <= length dst)%nat ->
  put_ones_from f hh n i dst = Ok (firstn (N.to_nat i) dst ++ pos_from f hh n i ++ skipn (N.to_nat i + n) dst).
Proof.
  induction n as [|n IH]; intros i dst S L; cbn [put_ones_from pos_from].
  - rewrite Nat.add_0_r, app_nil_l, firstn_skipn. reflexivity.
  - destruct S as [S|S]; [discriminate S|]. rewrite clamp_fine by exact S. cbn [bind]. fold (bits_of f).
    destruct (Nat.ltb_spec (N.to_nat i) (length dst)) as [Li|Li]; [|lia]. rewrite IH; [|right; exact S|rewrite upd_len; lia].
    set (h := u32 (N.lxor hh (u32 (i + 97)) * fnv32_prime) mod bits_of f). clearbody h.
    replace (N.to_nat (i + 1)) with (Datatypes.S (N.to_nat i)) by lia. f_equal.
    assert (G : forall j (l : list N), (j < length l)%nat -> firstn (Datatypes.S j) (upd j h l) = firstn j l ++ [h] /\ forall m, skipn (Datatypes.S j + m) (upd j h l) = skipn (j + Datatypes.S m) l).
    { clear. induction j as [|j IHj]; intros [|x l] L; cbn [length] in L; try lia.
      - split; [reflexivity|]. intros m. reflexivity.
      - destruct (IHj l) as [A B]; [lia|]. split; [cbn [upd firstn app] in *; rewrite A; reflexivity|]. intros m. cbn [upd skipn Nat.add] in *. apply B. }
    destruct (G (N.to_nat i) dst Li) as [-> ->]. rewrite <- app_assoc. reflexivity.
Qed.
Lemma put_ones_spec f dst v : sane f -> (N.to_nat (u32_of_int (fl_k f)) <= length dst)%nat ->
  put_ones f dst v = Ok (positions f v ++ skipn (N.to_nat (u32_of_int (fl_k f))) dst).
Proof.
  intros S L. unfold put_ones. rewrite put_ones_from_spec; [reflexivity| |exact L]. destruct S as [->|S]; [left; reflexivity|right; exact S].
Qed.
Lemma bit_member d p : bit d p <-> member d (N.to_nat p) = true.
Proof.
  unfold bit, member. assert (E1 : N.to_nat (p / 8) = (N.to_nat p / 8)%nat) by (rewrite N2Nat.inj_div; reflexivity).
  assert (E2 : N.of_nat (N.to_nat p mod 8) = p mod 8) by (change 8%nat with (N.to_nat 8); rewrite <- N2Nat.inj_mod, N2Nat.id; reflexivity).
  rewrite E1, E2. split.
  - intros (x & E & T). rewrite (nth_error_nth _ _ 0 E). exact T.
  - intros T. destruct (nth_error d (N.to_nat p / 8)) as [x|] eqn:E.
    + exists x. split; [reflexivity|]. rewrite <- T. f_equal. symmetry. exact (nth_error_nth _ _ 0 E).
    + rewrite nth_overflow, N.bits_0 in T by (apply nth_error_None, E). discriminate.
Qed.
Lemma positions_len f v : length (positions f v) = N.to_nat (u32_of_int (fl_k f)).
Proof. unfold positions. generalize 0. generalize (N.to_nat (u32_of_int (fl_k f))). induction n as [|n IH]; intros i; cbn [pos_from length]; auto. Qed.
Lemma member_cons b d i : member (b :: d) i = if (i <? 8)%nat then N.testbit b (N.of_nat i) else member d (i - 8).
Proof.
  unfold member. destruct (Nat.ltb_spec i 8) as [L|L].
  - rewrite Nat.div_small, Nat.mod_small by exact L. reflexivity.
  - replace i with ((i - 8) + 1 * 8)%nat at 1 2 by lia. rewrite Nat.div_add, Nat.mod_add by lia. rewrite Nat.add_1_r. reflexivity.
Qed.
Lemma member_nil i : member [] i = false.
Proof. unfold member. destruct (i / 8)%nat; apply N.bits_0. Qed.
Lemma zip_member f g : (forall x y m, N.testbit (f x y) m = g (N.testbit x m) (N.testbit y m)) -> g false false = false ->
  forall d o, length o = length d -> exists r, zip_set f d o = Ok r /\ length r = length d /\ forall i, member r i = g (member d i) (member o i).
Proof.
  intros Hg G0. induction d as [|x d IH]; intros [|y o] L; try discriminate; cbn [zip_set].
  - exists []. split; [reflexivity|]. split; [reflexivity|]. intros i. rewrite member_nil, G0. reflexivity.
  - injection L as L. destruct (IH o L) as (r & -> & Lr & M). exists (f x y :: r). split; [reflexivity|]. split; [cbn [length]; congruence|].
    intros i. rewrite !member_cons. destruct (i <? 8)%nat; [apply Hg|apply M].
Qed.
Lemma full_member n : forall i, member (repeat 255 n) i = (i <? 8 * n)%nat.
Proof.
  induction n as [|n IH]; intros i; cbn [repeat]; [rewrite member_nil; symmetry; apply Nat.ltb_ge; lia|]. rewrite member_cons. destruct (Nat.ltb_spec i 8) as [L|L].
  - destruct (Nat.ltb_spec i (8 * S n)) as [_|C]; [|lia]. destruct i as [|[|[|[|[|[|[|[|i]]]]]]]]; try reflexivity. lia.
  - rewrite IH. destruct (Nat.ltb_spec (i - 8) (8 * n)), (Nat.ltb_spec i (8 * S n)); auto; lia.
Qed.
Lemma zero_member n i : member (repeat 0 n) i = false.
Proof. unfold member. replace (nth (i / 8) (repeat 0 n) 0) with 0; [apply N.bits_0|]. symmetry. revert n. generalize (i / 8)%nat. induction n as [|n IH]; intros [|k]; cbn [repeat nth]; auto. Qed.
