(** Statistics of an index. *)
From Coq Require Import QArith Qround Qabs Qpower Lqa Lia ZArith List Permutation.
From Verif Require Import Model.Base Model.Utf8 Model.Token Model.Blotter Model.Post Model.Shard Model.Conc Model.Config Model.Index Model.Query Model.Session Model.Extract Model.Float Model.Stats.
From Verif Require Import Spec.Text Spec.Fingerprint Spec.Configs Spec.Reading Spec.Querying Spec.History Spec.Mean.
From Verif Require Import Proof.Tactics Proof.TokenP Proof.SessionP Proof.SessionP2 Proof.QueryP Proof.ExtractP Proof.FloatP Proof.StatsP Proof.StatsP2.
Import ListNotations.
Local Open Scope Q_scope.

(** * Averages *)

Lemma average_perm a b : Permutation a b -> average a == average b.
Proof. intros P. unfold average. rewrite (qsum_perm _ _ P), (Permutation_length P). reflexivity. Qed.

Lemma qsum_sq_ext l a b : a == b -> qsum (map (fun x => (x - a) * (x - a)) l) == qsum (map (fun x => (x - b) * (x - b)) l).
Proof. intros E. unfold qsum. induction l as [|x l IH]; cbn [map fold_right]; [reflexivity|]. rewrite IH, E. reflexivity. Qed.

Lemma variance_perm a b : Permutation a b -> variance a == variance b.
Proof.
  intros P. unfold variance. set (x := average a). set (y := average b).
  assert (E : x == y) by (apply average_perm, P).
  unfold average. rewrite !map_length, (Permutation_length P), (qsum_sq_ext a x y E).
  rewrite (qsum_perm _ _ (Permutation_map (fun z => (z - y) * (z - y)) P)). reflexivity.
Qed.

Lemma average_nonneg l : average (map count l) >= 0.
Proof.
  unfold average. rewrite map_length, qsum_counts. destruct l as [|c l]; [vm_compute; discriminate|].
  apply Qle_shift_div_l; [apply Q_of_Z_pos; cbn [length]; lia|]. rewrite Qmult_0_l. change 0 with (inject_Z 0). rewrite <- Zle_Qle. lia.
Qed.

Lemma variance_nonneg l : 0 <= variance l.
Proof.
  unfold variance, average at 1. set (a := average l). clearbody a. rewrite map_length. destruct l as [|x l]; [vm_compute; discriminate|].
  apply Qle_shift_div_l; [apply Q_of_Z_pos; cbn [length]; lia|]. rewrite Qmult_0_l.
  generalize (x :: l). clear x l. intros l. unfold qsum. induction l as [|x l IH]; cbn [map fold_right]; [lra|]. pose proof (sq_nonneg (x - a)). lra.
Qed.

(** * An index *)

Section Index.
  Variables (ix : index) (n : nat).
  Hypothesis Ln : length (ix_shards ix) = n.
  Hypothesis Hn : (0 < n)%nat /\ (N.of_nat n < 65536)%N.
  Hypothesis Hc : Forall (fun x => length (si_counts x) = num_slots /\ Forall small (si_counts x)) (ix_shards ix).

  Definition all_counts : list N := concat (map si_counts (ix_shards ix)).

  Lemma shape : Forall (fun l => Forall small l /\ length l = num_slots) (map si_counts (ix_shards ix)).
  Proof. apply Forall_map. eapply Forall_impl; [|exact Hc]. cbn. tauto. Qed.

  Lemma all_counts_len : Z.of_nat (length all_counts) = (Z.of_nat n * 65536)%Z.
  Proof.
    unfold all_counts. rewrite <- Ln. clear -Hc. induction Hc as [|x l [Lx _] F IH]; [reflexivity|].
    cbn [map concat length]. rewrite app_length, Lx. unfold num_slots in *. lia.
  Qed.

  Lemma all_counts_small : Forall small all_counts.
  Proof.
    unfold all_counts. clear -Hc. induction Hc as [|x l [_ Sx] F IH]; [constructor|]. cbn [map concat]. apply Forall_app. auto.
  Qed.

  Lemma sum_bound : (sumN all_counts < 18446744073709551616)%N.
  Proof.
    eapply N.le_lt_trans; [apply (sumN_bound _ 4294967295)|].
    - eapply Forall_impl; [|apply all_counts_small]. unfold small. intros; lia.
    - pose proof all_counts_len as L. unfold nlen. lia.
  Qed.

  Lemma posts_sum : st_posts (index_stats ix) = sumN all_counts.
  Proof.
    unfold index_stats. cbn [st_posts]. rewrite fold_sum_map.
    assert (G : forall l, (sumN (concat (map si_counts l)) < 18446744073709551616)%N -> map shard_num_posts l = map (fun x => sumN (si_counts x)) l).
    { induction l as [|x l IH]; [reflexivity|]. cbn [map concat]. rewrite sumN_app. intros B. f_equal; [|apply IH; lia].
      unfold shard_num_posts. rewrite fold_sum; [apply N.add_0_l|lia]. }
    pose proof sum_bound as B. rewrite (G _ B).
    assert (E : sumN (map (fun x => sumN (si_counts x)) (ix_shards ix)) = sumN all_counts).
    { unfold all_counts. rewrite sumN_concat, map_map. reflexivity. }
    rewrite fold_sum; rewrite E; [apply N.add_0_l|]. rewrite N.add_0_l. exact B.
  Qed.

  Lemma blots_num : Z.of_N (st_blots (index_stats ix)) = (Z.of_nat n * 65536)%Z.
  Proof. unfold index_stats. cbn [st_blots]. unfold u64, nlen. rewrite Ln, N.mod_small; lia. Qed.

  Notation mu := (average (map count all_counts)).
  Notation var := (variance (map count all_counts)).

  Lemma mu_eq : mu == inject_Z (Z.of_N (st_posts (index_stats ix))) / inject_Z (Z.of_N (st_blots (index_stats ix))).
  Proof. unfold average. rewrite map_length, qsum_counts, posts_sum, blots_num, all_counts_len. reflexivity. Qed.

  Lemma mean_ix : exists m, is (blot_mean ix) m /\ within 2 m mu /\ grid (-90) m /\ 0 <= m /\ m <= 2 ^ 66.
  Proof.
    pose proof sum_bound. destruct (mean_close (Z.of_N (st_posts (index_stats ix))) (Z.of_N (st_blots (index_stats ix)))) as (m & I & W & R).
    - rewrite posts_sum. change (2 ^ 64)%Z with 18446744073709551616%Z. lia.
    - rewrite blots_num. change (2 ^ 32)%Z with 4294967296%Z. lia.
    - exists m. split; [exact I|]. rewrite mu_eq. auto.
  Qed.

  Theorem mean_index : exists m, is (blot_mean ix) m /\ 0 <= m /\ Qabs (m - mu) <= 2 ^ (-51) * mu.
  Proof.
    destruct mean_ix as (m & I & W & _ & P & _). exists m. split; [exact I|]. split; [exact P|]. apply mean_bound; [apply average_nonneg|exact W].
  Qed.

  Lemma fold_map {A B C} (f : A -> B -> A) (g : C -> B) l : forall a, fold_left f (map g l) a = fold_left (fun a c => f a (g c)) l a.
  Proof. induction l as [|c l IH]; intros a; cbn [map fold_left]; auto. Qed.

  Lemma sigma_ix fuse m : is (blot_mean ix) m -> grid (-90) m -> 0 <= m /\ m <= 2 ^ 66 ->
    exists s, is (blot_sigma fuse ix) s /\ 0 <= s /\
      (1 - 2 ^ (-35)) * (var + (m - mu) * (m - mu)) <= s * s /\ s * s <= (1 + 2 ^ (-35)) * (var + (m - mu) * (m - mu)).
  Proof.
    intros I G P.
    destruct (sigma_close fuse (blot_mean ix) m num_slots (map si_counts (ix_shards ix)) (Z.of_N (st_blots (index_stats ix))) I G P shape) as (s & Is & S0 & W).
    - rewrite map_length, Ln, blots_num. unfold num_slots. lia.
    - rewrite blots_num. change (2 ^ 32)%Z with 4294967296%Z. lia.
    - exists s. split; [unfold blot_sigma, sos_diffs; rewrite fold_map in Is; exact Is|]. split; [exact S0|].
      rewrite blots_num, <- all_counts_len in W. fold all_counts in W.
      assert (L : (0 < length all_counts)%nat) by (pose proof all_counts_len; lia).
      rewrite (sqdev_mean m all_counts L) in W.
      apply (sigma_bound _ _ _) in W; [exact W| |].
      + rewrite map_length, Ln. unfold num_slots. change (2 ^ 17 + 6)%Z with 131078%Z. lia.
      + pose proof (variance_nonneg (map count all_counts)). pose proof (sq_nonneg (m - mu)). lra.
  Qed.

  Theorem sigma_index fuse : exists s, is (blot_sigma fuse ix) s /\ 0 <= s /\
    (1 - 2 ^ (-35)) * var <= s * s /\ s * s <= (1 + 2 ^ (-35)) * (var + (2 ^ (-51) * mu) * (2 ^ (-51) * mu)).
  Proof.
    destruct mean_ix as (m & I & W & G & P). destruct (sigma_ix fuse m I G P) as (s & Is & S0 & L & U).
    exists s. split; [exact Is|]. split; [exact S0|].
    assert (A : 0 <= mu) by apply average_nonneg. pose proof (mean_bound m mu A W) as B.
    assert (D : (m - mu) * (m - mu) <= (2 ^ (-51) * mu) * (2 ^ (-51) * mu)).
    { apply Qabs_Qle_condition in B. set (x := m - mu) in *. set (b := 2 ^ (-51) * mu) in *. clearbody x b. nra. }
    assert (C1 : 0 < 1 - 2 ^ (-35)) by (vm_compute; reflexivity). assert (C2 : 0 < 1 + 2 ^ (-35)) by (vm_compute; reflexivity).
    pose proof (sq_nonneg (m - mu)). set (x := (m - mu) * (m - mu)) in *. set (b := (2 ^ (-51) * mu) * (2 ^ (-51) * mu)) in *. clearbody x b.
    set (c1 := 1 - 2 ^ (-35)) in *. set (c2 := 1 + 2 ^ (-35)) in *. clearbody c1 c2. split.
    - apply Qle_trans with (c1 * (var + x)); [|exact L]. apply Qmult_le_l; [exact C1|lra].
    - apply Qle_trans with (c2 * (var + x)); [exact U|]. apply Qmult_le_l; [exact C2|lra].
  Qed.

  (** All counts equal. *)
  Theorem uniform_index fuse c : Forall (fun x => x = c) all_counts -> is (blot_mean ix) (count c) /\ is (blot_sigma fuse ix) 0.
  Proof.
    intros U.
    assert (Sc : small c).
    { pose proof all_counts_small as S. pose proof all_counts_len. destruct all_counts as [|x l]; [cbn [length] in *; lia|].
      inversion S; subst. inversion U; subst. assumption. }
    assert (Es : Z.of_N (sumN all_counts) = (Z.of_N c * Z.of_nat n * 65536)%Z).
    { rewrite <- Z.mul_assoc, <- all_counts_len. clear -U. unfold sumN. induction U as [|x l -> U IH]; [cbn [fold_right length]; lia|]. cbn [fold_right length]. lia. }
    assert (PB : 0 < inject_Z (Z.of_nat n * 65536)) by (apply Q_of_Z_pos; lia).
    assert (Im : is (blot_mean ix) (count c)).
    { unfold blot_mean. rewrite posts_sum, blots_num, Es.
      destruct (fdiv_is (float_of (Z.of_N c * Z.of_nat n * 65536)) (float_of (Z.of_nat n * 65536)) (inject_Z (Z.of_N c * Z.of_nat n * 65536)) (inject_Z (Z.of_nat n * 65536))) as (z & -> & Ez).
      - apply (round64_exact _ (Z.of_N c * Z.of_nat n) 16); [rewrite inject_Z_mult; reflexivity| |lia|].
        + unfold small in Sc. change (2 ^ 53)%Z with 9007199254740992%Z. nia.
        + rewrite inject_Z_abs. apply Qle_lt_trans with (2 ^ 64).
          * apply Q_of_Z_le; [lia|]. unfold small in Sc. change (2 ^ 64)%Z with 18446744073709551616%Z. nia.
          * apply Qlt_le_trans with (2 ^ 65); [reflexivity|apply two_mono; lia].
      - apply round64_Z. change (2 ^ 53)%Z with 9007199254740992%Z. lia.
      - lra.
      - assert (E : z == inject_Z (Z.of_N c)).
        { rewrite Ez, <- Z.mul_assoc, inject_Z_mult. field. lra. }
        fold (count c) in E. apply (is_eq _ z); [exact E|]. 
        apply (round64_exact _ (Z.of_N c) 0); [rewrite E; unfold count; change (2 ^ 0) with 1; ring| |lia|].
        + unfold small in Sc. change (2 ^ 53)%Z with 9007199254740992%Z. lia.
        + rewrite E. apply count_bounds in Sc. rewrite Qabs_pos by lra. apply Qle_lt_trans with (2 ^ 32); [lra|].
          apply Qlt_le_trans with (2 ^ 33); [reflexivity|apply two_mono; lia]. }
    split; [exact Im|].
    destruct (sigma_ix fuse (count c) Im) as (s & Is & S0 & _ & Up).
    - apply grid_Z. lia.
    - apply count_bounds in Sc. assert (2 ^ 32 <= 2 ^ 66) by (apply two_mono; lia). lra.
    - assert (Em : mu == count c).
      { rewrite mu_eq, posts_sum, blots_num, Es, <- Z.mul_assoc, inject_Z_mult. unfold count. field. lra. }
      assert (Ev : var == 0).
      { assert (V : var == sqdev (count c) all_counts / inject_Z (Z.of_nat (length all_counts)) - (count c - mu) * (count c - mu)).
        { rewrite sqdev_mean by (pose proof all_counts_len; lia). ring. }
        assert (Z0 : sqdev (count c) all_counts == 0).
        { clear -U. unfold sqdev, qsum. induction U as [|x l -> U IH]; cbn [map fold_right]; [reflexivity|]. rewrite IH. ring. }
        rewrite V, Z0, Em. unfold Qdiv. ring. }
      rewrite Ev, Em in Up. apply (is_eq _ s); [|exact Is].
      assert (X : s * s <= 0) by (eapply Qle_trans; [exact Up|]; ring_simplify; lra). clear -S0 X.
      destruct (Qlt_le_dec 0 s) as [C | C]; [|lra]. nra.
  Qed.

  (** The threshold. *)
  Lemma mu_bound : mu <= 2 ^ 32.
  Proof.
    unfold average. rewrite map_length. pose proof all_counts_len as L. apply Qle_shift_div_r; [apply Q_of_Z_pos; lia|].
    generalize all_counts_small. generalize all_counts. clear. intros l F. unfold qsum.
    induction F as [|c l Hc F IH]; [vm_compute; discriminate|]. cbn [map fold_right length]. apply count_bounds in Hc.
    rewrite Nat2Z.inj_succ. unfold Z.succ. rewrite inject_Z_plus. change (inject_Z 1) with 1.
    assert (2 ^ 32 * (inject_Z (Z.of_nat (length l)) + 1) == 2 ^ 32 * inject_Z (Z.of_nat (length l)) + 2 ^ 32) by ring. lra.
  Qed.

  Lemma var_bound : var <= 2 ^ 66.
  Proof.
    assert (L : (0 < length all_counts)%nat) by (pose proof all_counts_len; lia).
    assert (V : var <= sqdev 0 all_counts / inject_Z (Z.of_nat (length all_counts))).
    { rewrite (sqdev_mean 0 all_counts L). pose proof (sq_nonneg (0 - mu)). lra. }
    eapply Qle_trans; [exact V|]. apply Qle_shift_div_r; [apply Q_of_Z_pos; lia|].
    generalize all_counts_small. generalize all_counts. clear. intros l F. unfold sqdev, qsum.
    induction F as [|c l Hc F IH]; [vm_compute; discriminate|]. cbn [map fold_right length]. apply count_bounds in Hc.
    rewrite Nat2Z.inj_succ. unfold Z.succ. rewrite inject_Z_plus. change (inject_Z 1) with 1.
    assert ((0 - count c) * (0 - count c) <= 2 ^ 66).
    { apply Qle_trans with (2 ^ 32 * 2 ^ 32); [|rewrite <- two_plus; apply two_mono; lia].
      setoid_replace ((0 - count c) * (0 - count c)) with (count c * count c) by ring. apply Qmult_le_compat_nonneg; lra. }
    assert (2 ^ 66 * (inject_Z (Z.of_nat (length l)) + 1) == 2 ^ 66 * inject_Z (Z.of_nat (length l)) + 2 ^ 66) by ring. lra.
  Qed.

  Lemma stats_bounds fuse m s : is (blot_mean ix) m -> is (blot_sigma fuse ix) s -> 0 <= m /\ m <= 2 ^ 34 /\ 0 <= s /\ s <= 2 ^ 34.
  Proof.
    intros Im Is. destruct mean_index as (m' & Im' & M0 & Bm). destruct (sigma_index fuse) as (s' & Is' & S0 & _ & Bs).
    pose proof (is_fun _ _ _ Im Im') as Em. pose proof (is_fun _ _ _ Is Is') as Es. rewrite Em, Es. clear m s Im Is Em Es Im' Is'.
    pose proof mu_bound as B1. pose proof var_bound as B2. assert (A : 0 <= mu) by apply average_nonneg.
    assert (C51 : 2 ^ (-51) <= 1) by (vm_compute; discriminate). assert (C51' : 0 < 2 ^ (-51)) by apply two_pos.
    assert (C35 : 2 ^ (-35) <= 1 # 2) by (vm_compute; discriminate).
    assert (Bmu : 2 ^ (-51) * mu <= 1).
    { apply Qle_trans with (2 ^ (-51) * 2 ^ 32); [apply Qmult_le_l; assumption|vm_compute; discriminate]. }
    assert (0 <= 2 ^ (-51) * mu) by (apply Qmult_le_0_compat; lra).
    apply Qabs_Qle_condition in Bm.
    assert (2 ^ 34 == 4 * 2 ^ 32) by (vm_compute; reflexivity). assert (1 <= 2 ^ 32) by (vm_compute; discriminate).
    repeat split; try lra.
    apply Qnot_lt_le. intros C.
    assert (S2 : 2 ^ 34 * 2 ^ 34 <= s' * s') by (apply Qmult_le_compat_nonneg; split; try lra; apply Qlt_le_weak, two_pos).
    assert (2 ^ 34 * 2 ^ 34 == 4 * 2 ^ 66) by (vm_compute; reflexivity). assert (2 <= 2 ^ 66) by (vm_compute; discriminate).
    set (b := 2 ^ (-51) * mu) in *. assert (b * b <= 1) by nra. set (d := 2 ^ (-35)) in *.
    assert ((1 + d) * (var + b * b) <= (3 # 2) * (2 ^ 66 + 1)).
    { pose proof (variance_nonneg (map count all_counts)). apply Qmult_le_compat_nonneg; split; try lra; [|pose proof (sq_nonneg b); lra].
      assert (0 < d) by apply two_pos. lra. }
    lra.
  Qed.

  (** Whatever -sigma is, as long as the threshold is an int64. *)
  Theorem threshold_fits fuse wild fs x m s : is fs x -> is (blot_mean ix) m -> is (blot_sigma fuse ix) s -> m + Qabs x * s <= 2 ^ 63 - 2 ^ 13 ->
    Qabs (inject_Z (extract_threshold fuse wild fs ix) - (m + x * s)) <= (1 # 2) + 2 ^ (-51) * (m + Qabs x * s) + 2 ^ (-1000) /\
    exists z, is (fmuladd fuse fs (blot_sigma fuse ix) (blot_mean ix)) z /\ extract_threshold fuse wild fs ix = round_away z.
  Proof.
    intros Ifs Im Is Bx. destruct (stats_bounds fuse m s Im Is) as (M0 & M1 & S0 & S1).
    assert (Axs : Qabs (x * s) == Qabs x * s) by (rewrite Qabs_Qmult, (Qabs_pos s) by exact S0; reflexivity).
    assert (Am : Qabs m == m) by (apply Qabs_pos; exact M0).
    assert (C1 : 2 ^ 63 <= 2 ^ 100) by (apply two_mono; lia). assert (C3 : 0 < 2 ^ 13) by apply two_pos.
    pose proof (Qabs_nonneg (x * s)) as A0.
    destruct (fmuladd_error fuse fs (blot_sigma fuse ix) (blot_mean ix) x s m Ifs Is Im) as (w & Iw & Ew); [lra|rewrite Am; lra|].
    rewrite Am in Ew.
    assert (Bw : Qabs w <= 2 ^ 63 - 1).
    { setoid_replace w with ((w - (x * s + m)) + (x * s + m)) by ring.
      eapply Qle_trans; [apply Qabs_triangle|]. pose proof (Qabs_triangle (x * s) m) as T. rewrite Am in T.
      assert (2 ^ (-51) * (Qabs (x * s) + m) <= 2 ^ (-51) * 2 ^ 63) by (apply Qmult_le_l; [apply two_pos|lra]).
      assert (2 ^ (-51) * 2 ^ 63 == 4096) by (vm_compute; reflexivity). assert (2 ^ 13 == 8192) by (vm_compute; reflexivity).
      assert (2 ^ (-1000) <= 1) by (apply (two_mono (-1000) 0); lia). lra. }
    destruct (round_to_int_ok wild _ w Iw Bw) as (z & Ez & Zw & Ei). unfold extract_threshold. rewrite Ei. split.
    - pose proof (round_away_error z) as R. rewrite Axs in Ew. apply Qabs_Qle_condition in R, Ew. apply Qabs_Qle_condition.
      assert (2 ^ (-51) * (m + Qabs x * s) == 2 ^ (-51) * (Qabs x * s + m)) by ring. lra.
    - exists z. split; [apply (is_eq _ w); [lra|exact Iw]|reflexivity].
  Qed.

  (** Up to 2^20 it always is. *)
  Lemma small_fits fuse x m s : is (blot_mean ix) m -> is (blot_sigma fuse ix) s -> Qabs x <= 2 ^ 20 -> m + Qabs x * s <= 2 ^ 63 - 2 ^ 13.
  Proof.
    intros Im Is Bx. destruct (stats_bounds fuse m s Im Is) as (M0 & M1 & S0 & S1).
    assert (Qabs x * s <= 2 ^ 54).
    { change 54%Z with (20 + 34)%Z. rewrite two_plus. apply Qmult_le_compat_nonneg; split; try assumption. apply Qabs_nonneg. }
    assert (2 ^ 34 + 2 ^ 54 <= 2 ^ 63 - 2 ^ 13) by (vm_compute; discriminate). lra.
  Qed.

  Theorem threshold_index fuse wild fs x m s : is fs x -> Qabs x <= 2 ^ 20 -> is (blot_mean ix) m -> is (blot_sigma fuse ix) s ->
    Qabs (inject_Z (extract_threshold fuse wild fs ix) - (m + x * s)) <= (1 # 2) + 2 ^ (-51) * (m + Qabs x * s) + 2 ^ (-1000) /\
    exists z, is (fmuladd fuse fs (blot_sigma fuse ix) (blot_mean ix)) z /\ extract_threshold fuse wild fs ix = round_away z.
  Proof. intros Ifs Bx Im Is. apply threshold_fits; try assumption. eapply small_fits; eassumption. Qed.

  Theorem threshold_mono fuse wild fs fs' x x' m s : is fs x -> is fs' x' -> is (blot_mean ix) m -> is (blot_sigma fuse ix) s ->
    m + Qabs x * s <= 2 ^ 63 - 2 ^ 13 -> m + Qabs x' * s <= 2 ^ 63 - 2 ^ 13 -> x <= x' ->
    (extract_threshold fuse wild fs ix <= extract_threshold fuse wild fs' ix)%Z.
  Proof.
    intros I I' Im Is B B' L. destruct (stats_bounds fuse m s Im Is) as (_ & _ & S0 & _).
    destruct (threshold_fits fuse wild fs x m s I Im Is B) as (_ & z & Iz & ->).
    destruct (threshold_fits fuse wild fs' x' m s I' Im Is B') as (_ & z' & Iz' & ->).
    apply round_away_mono. eapply (fmuladd_mono fuse fs fs' _ _ x x' s m z z'); eauto.
  Qed.

  (** Beyond, the conversion gives anything. *)
  Theorem threshold_overflows fuse wild fs x m s : is fs x -> is (blot_mean ix) m -> is (blot_sigma fuse ix) s -> 2 ^ 63 + 2 ^ 13 <= m + x * s ->
    extract_threshold fuse wild fs ix = wild (fmuladd fuse fs (blot_sigma fuse ix) (blot_mean ix)).
  Proof.
    intros Ifs Im Is Bx. destruct (stats_bounds fuse m s Im Is) as (M0 & M1 & S0 & S1).
    assert (C0 : 2 ^ 34 <= 2 ^ 62) by (apply two_mono; lia). assert (C3 : 0 < 2 ^ 13) by apply two_pos. assert (C4 : 2 ^ 63 == 2 * 2 ^ 62) by (vm_compute; reflexivity).
    assert (C5 := two_pos 62).
    assert (Ps : 0 < s). { apply Qnot_le_lt. intros C. assert (E : s == 0) by lra. rewrite E in Bx. lra. }
    assert (Px : 0 < x). { apply Qnot_le_lt. intros C. assert (x * s <= 0) by (setoid_replace 0 with (0 * s) by ring; apply Qmult_le_compat_r; lra). lra. }
    assert (Am : Qabs m == m) by (apply Qabs_pos; exact M0).
    assert (W : forall y, y * s + m <= 2 ^ 100 -> 2 ^ 63 + 2 ^ 13 <= m + y * s -> forall g, is g y -> exists w, is (fmuladd fuse g (blot_sigma fuse ix) (blot_mean ix)) w /\ 2 ^ 63 <= w).
    { intros y By By' g Ig. assert (Ay : Qabs (y * s) == y * s) by (apply Qabs_pos; lra).
      destruct (fmuladd_error fuse g (blot_sigma fuse ix) (blot_mean ix) y s m Ig Is Im) as (w & Iw & Ew); [lra|rewrite Am; lra|].
      exists w. split; [exact Iw|]. rewrite Am, Ay in Ew. apply Qabs_Qle_condition in Ew.
      set (t := y * s + m) in *. assert (T : 2 ^ 63 + 2 ^ 13 <= t) by (subst t; lra).
      assert (2 ^ (-51) * t <= t - 2 ^ 63 - 1).
      { assert (H : (1 - 2 ^ (-51)) * (2 ^ 63 + 2 ^ 13) <= (1 - 2 ^ (-51)) * t) by (apply Qmult_le_l; [vm_compute; reflexivity|exact T]).
        assert (2 ^ 63 + 1 <= (1 - 2 ^ (-51)) * (2 ^ 63 + 2 ^ 13)) by (vm_compute; discriminate). lra. }
      assert (2 ^ (-1000) <= 1) by (apply (two_mono (-1000) 0); lia). lra. }
    assert (R : forall f w, is f w -> 2 ^ 63 <= w -> round_to_int wild f = wild f).
    { intros f w (z & -> & Z) Lw. cbn [round_to_int].
      assert ((round_away z <=? 9223372036854775807)%Z = false) as ->; [|rewrite andb_false_r; reflexivity].
      apply Z.leb_gt. unfold round_away. destruct (Qle_bool 0 z) eqn:Ez; [|assert (0 <= z) by lra; apply Qle_bool_iff in H; congruence].
      assert (H : (Qfloor (inject_Z 9223372036854775808) <= Qfloor (z + (1 # 2)))%Z).
      { apply Qfloor_resp_le. assert (inject_Z 9223372036854775808 == 2 ^ 63) by (vm_compute; reflexivity). lra. }
      rewrite Qfloor_Z in H. lia. }
    unfold extract_threshold. destruct (Qlt_le_dec (2 ^ 100) (x * s + m)) as [Bg | Bs].
    - destruct (fmuladd fuse fs (blot_sigma fuse ix) (blot_mean ix)) as [w | neg | ] eqn:Ef; [|reflexivity|reflexivity].
      set (x0 := (2 ^ 100 - m) / s).
      assert (E0 : x0 * s == 2 ^ 100 - m) by (unfold x0; field; lra).
      assert (L0 : x0 <= x).
      { apply Qle_shift_div_r; [exact Ps|]. lra. }
      destruct (W x0) with (g := Fin x0) as (w0 & I0 & B0); [rewrite E0; lra|rewrite E0; assert (2 ^ 63 + 2 ^ 13 <= 2 ^ 100) by (vm_compute; discriminate); lra|apply is_fin|].
      apply (R (Fin w) w); [apply is_fin|].
      assert (w0 <= w); [|lra]. eapply (fmuladd_mono fuse (Fin x0) fs _ _ x0 x s m w0 w); eauto; [apply is_fin|rewrite Ef; apply is_fin].
    - destruct (W x Bs Bx fs Ifs) as (w & Iw & Bw). apply (R _ w Iw Bw).
  Qed.
End Index.
