(** Statistics of an index made by a history of sessions. *)
From Coq Require Import QArith Qround Qabs Qpower Lqa Lia ZArith List Permutation.
From Verif Require Import Model.Base Model.Utf8 Model.Token Model.Blotter Model.Post Model.Poster Model.Shatter Model.Shard Model.Dmd Model.Fnames Model.Conc Model.Config Model.Run Model.Index Model.Query Model.Session Model.Extract Model.Float Model.Stats.
From Verif Require Import Spec.Text Spec.Fingerprint Spec.Configs Spec.Posting Spec.Postings Spec.Paths Spec.Reading Spec.Querying Spec.History Spec.Mean.
From Verif Require Import Proof.Tactics Proof.TokenP Proof.BlotterP Proof.SessionP Proof.SessionP2 Proof.QueryP Proof.QueryW Proof.FloatP Proof.StatsP Proof.StatsP2 Proof.StatsP3.
Import ListNotations.
Local Open Scope Q_scope.

Section E.
  Variables (u : unicode) (c : config) (k m n : nat) (sorted : list N -> list nat).
  Hypothesis F : cfg_full c k m n.
  Hypothesis Hs : sorts sorted.
  Notation H := (word_hash u).

  Lemma history_counts ss dk wss : history u c ss dk -> docs_fit (all_docs ss) -> words_of (word_char u) (all_docs ss) wss ->
    exists ix, open_index sorted dk = Ok ix /\ length (ix_shards ix) = n /\ ((0 < n)%nat /\ (N.of_nat n < 65536)%N) /\
      Forall (fun x => length (si_counts x) = num_slots /\ Forall small (si_counts x)) (ix_shards ix) /\
      Permutation (map count (all_counts ix)) (per_blot H k m n wss).
  Proof.
    intros Hi Fit Ww. destruct F as [Ok_ Hn Hf].
    destruct (history_inv u c k m n Ok_ Hn Hf ss dk Hi Fit wss Ww) as (fn & fs & D).
    destruct (open_index_ok u c k m n Ok_ Hn sorted Hs _ wss fn fs dk D Ww Fit) as (ix & E & I & _ & Ed & Wf & Sk & Lc).
    exists ix. split; [exact E|]. pose proof (io_pos _ _ _ _ I) as Hp. pose proof (io_len _ _ _ _ I) as Ln. pose proof (io_max _ _ _ _ I) as Hm.
    assert (Cn : forall s si, nth_error (ix_shards ix) s = Some si -> si_counts si = map (fun b => nlen (held H k m n wss s b)) (seq 0 num_slots)).
    { intros s si Es. apply nth_ext with (d := 0%N) (d' := nlen (held H k m n wss s 0)).
      - rewrite map_length, seq_length. rewrite Forall_forall in Lc. apply Lc. eapply nth_error_In, Es.
      - intros b Lb. rewrite Forall_forall in Lc. rewrite (Lc si) in Lb by (eapply nth_error_In, Es).
        rewrite (map_nth (fun b => nlen (held H k m n wss s b))), seq_nth by exact Lb. apply (io_reads _ _ _ _ I s si Es b Lb). }
    split; [exact Ln|]. split; [auto|]. split.
    - apply Forall_forall. intros x Hx. destruct (In_nth_error _ _ Hx) as [s Es]. split; [rewrite Forall_forall in Lc; apply Lc, Hx|].
      rewrite (Cn s x Es). apply Forall_map, Forall_forall. intros b _. unfold small, held.
      pose proof (carriers_len H k m n (N.of_nat b * N.of_nat n + N.of_nat s) wss 0). pose proof (words_of_len _ _ _ Ww).
      pose proof (df_len _ Fit) as L. change (2 ^ 32)%N with 4294967296%N in L. unfold nlen in *. lia.
    - assert (Em : map si_counts (ix_shards ix) = map (fun s => map (fun b => nlen (held H k m n wss s b)) (seq 0 num_slots)) (seq 0 n)).
      { apply nth_error_ext'. intros s. rewrite !nth_error_map. destruct (Nat.lt_ge_cases s n) as [L|L].
        - destruct (nth_error (ix_shards ix) s) as [si|] eqn:Es; [|apply nth_error_None in Es; lia].
          rewrite nth_error_nth' with (d := 0%nat) by (rewrite seq_length; exact L).
          rewrite seq_nth by exact L. cbn [option_map Nat.add]. f_equal. apply (Cn s si Es).
        - rewrite !(proj2 (nth_error_None _ _)) by (rewrite ?seq_length; lia). reflexivity. }
      assert (Ea : all_counts ix = map (fun q => nlen (carriers H k m n 0 wss q)) (all_q n)).
      { unfold all_counts, all_q. rewrite Em, concat_map, map_map. apply (f_equal (@concat N)). apply map_ext. intros s. rewrite map_map. apply map_ext. intros b. unfold held. apply eq_refl. }
      rewrite Ea, map_map. unfold per_blot. rewrite <- (map_map N.of_nat (fun q => count (nlen (carriers H k m n 0 wss q)))). apply Permutation_map.
      apply NoDup_Permutation; [apply all_q_nodup|apply FinFun.Injective_map_NoDup; [intros a b X; lia|apply seq_NoDup]|].
      intros q. rewrite all_q_in by exact Hp. split.
      + intros L. apply in_map_iff. exists (N.to_nat q). split; [apply N2Nat.id|]. apply in_seq. lia.
      + intros Hq. apply in_map_iff in Hq. destruct Hq as (i & <- & Hq). apply in_seq in Hq. lia.
  Qed.
End E.

Lemma is_Fin f x : is f x -> exists y, f = Fin y /\ y == x.
Proof. intros (y & -> & Y). eauto. Qed.

(** * A witness: thresholds for small and for very large sigmas *)

Fixpoint ups (a : N) (l : nat) : list N := match l with O => [] | S l => a :: ups (a + 1)%N l end.
Lemma ups_seq l : forall a, map N.of_nat (seq a l) = ups (N.of_nat a) l.
Proof.
  induction l as [|l IH]; intros a; [reflexivity|]. cbn [seq map ups]. f_equal. rewrite IH. f_equal. lia.
Qed.
Lemma ups_len l : forall a, length (ups a l) = l.
Proof. induction l as [|l IH]; intros a; cbn [ups length]; auto. Qed.

Definition wit_counts : list N :=
  map (fun q => nlen (if (wit_blot1 =? q)%N then [1; 2; 3]%N else if (wit_blot2 =? q)%N then [4; 5]%N else [])) (ups 0 (N.to_nat 131072)).

Lemma wit_per_blot u : per_blot (word_hash u) 1 10 2 wit_wss = map count wit_counts.
Proof.
  unfold per_blot, wit_counts. change (N.of_nat 2 * 65536)%N with 131072%N. generalize (N.to_nat 131072). intros l.
  rewrite <- (map_map N.of_nat (fun q => count (nlen (carriers (word_hash u) 1 10 2 0 wit_wss q)))), ups_seq, map_map.
  apply map_ext. intros q. rewrite wit_carriers. reflexivity.
Qed.

Lemma wit_sum : fold_right N.add 0%N wit_counts = 5%N.
Proof. vm_compute. reflexivity. Qed.
Lemma wit_squares : fold_right N.add 0%N (map (fun x => x * x)%N wit_counts) = 13%N.
Proof. vm_compute. reflexivity. Qed.
Lemma wit_len : Z.of_nat (length wit_counts) = 131072%Z.
Proof. unfold wit_counts. rewrite map_length, ups_len, N_nat_Z. reflexivity. Qed.

Lemma sqdev_0 l : sqdev 0 l == inject_Z (Z.of_N (fold_right N.add 0%N (map (fun x => x * x)%N l))).
Proof.
  unfold sqdev, qsum. induction l as [|x l IH]; cbn [map fold_right]; [reflexivity|]. rewrite IH. unfold count.
  rewrite N2Z.inj_add, inject_Z_plus, N2Z.inj_mul, inject_Z_mult. ring.
Qed.

Lemma average_by l s b : fold_right N.add 0%N l = s -> Z.of_nat (length l) = b -> average (map count l) == inject_Z (Z.of_N s) / inject_Z b.
Proof. intros <- <-. unfold average. rewrite map_length, qsum_counts. reflexivity. Qed.

Lemma variance_by l s q b : (0 < b)%Z -> fold_right N.add 0%N l = s -> fold_right N.add 0%N (map (fun x => x * x)%N l) = q -> Z.of_nat (length l) = b ->
  variance (map count l) == inject_Z (Z.of_N q) / inject_Z b - (inject_Z (Z.of_N s) / inject_Z b) * (inject_Z (Z.of_N s) / inject_Z b).
Proof.
  intros Hb Es Eq Eb. pose proof (average_by l s b Es Eb) as A.
  assert (L : (0 < length l)%nat) by lia. pose proof (sqdev_mean 0 l L) as E. cbv zeta in E.
  rewrite A, sqdev_0, Eq, Eb in E. lra.
Qed.

Lemma wit_average u : average (per_blot (word_hash u) 1 10 2 wit_wss) == 5 # 131072.
Proof. rewrite wit_per_blot, (average_by wit_counts 5 131072 wit_sum wit_len). reflexivity. Qed.

Lemma wit_variance u : variance (per_blot (word_hash u) 1 10 2 wit_wss) == (13 # 131072) - (5 # 131072) * (5 # 131072).
Proof. rewrite wit_per_blot, (variance_by wit_counts 5 13 131072 eq_refl wit_sum wit_squares wit_len). reflexivity. Qed.

Lemma round_to_int_big wild f w : is f w -> 2 ^ 64 <= w -> round_to_int wild f = wild f.
Proof.
  intros (z & -> & Z) L. cbn [round_to_int]. pose proof (round_away_error z) as R. apply Qabs_Qle_condition in R.
  assert (B : inject_Z (2 ^ 63) <= inject_Z (round_away z)).
  { assert (inject_Z (2 ^ 63) + 1 <= 2 ^ 64) by (vm_compute; discriminate). lra. }
  rewrite <- Zle_Qle in B. change (2 ^ 63)%Z with 9223372036854775808%Z in B.
  assert (E : (round_away z <=? 9223372036854775807)%Z = false) by (apply Z.leb_gt; lia).
  rewrite E, andb_false_r. reflexivity.
Qed.

(** The statistics of the witness are about 0.00004 and 0.00996. *)
Lemma wit_stats u sorted dk ix fuse : sorts sorted -> history u wit_config [wit_docs] dk -> open_index sorted dk = Ok ix ->
  exists m s, is (blot_mean ix) m /\ is (blot_sigma fuse ix) s /\ 0 <= m /\ m <= 1 # 1000 /\ 99 # 10000 <= s /\ s <= 1 # 100.
Proof.
  intros Hs Hi E. destruct (history_counts u wit_config 1 10 2 sorted wit_full Hs [wit_docs] dk wit_wss Hi wit_fit (wit_words u)) as (ix' & E' & Ln & Hn & Hc & P).
  rewrite E in E'. injection E' as <-.
  pose proof (average_perm _ _ P) as A. pose proof (variance_perm _ _ P) as V. rewrite wit_average in A. rewrite wit_variance in V.
  destruct (mean_index ix 2 Ln Hn Hc) as (m & Im & M0 & Bm). destruct (sigma_index ix 2 Ln Hn Hc fuse) as (s & Is & S0 & L & U).
  rewrite A in Bm. rewrite V in L. rewrite A, V in U. exists m, s. split; [exact Im|]. split; [exact Is|]. split; [exact M0|].
  apply Qabs_Qle_condition in Bm. assert (C : 2 ^ (-51) <= 1) by (vm_compute; discriminate).
  split; [lra|].
  assert (L' : (99 # 10000) * (99 # 10000) <= s * s) by (eapply Qle_trans; [|exact L]; vm_compute; discriminate).
  assert (U' : s * s <= (1 # 100) * (1 # 100)) by (eapply Qle_trans; [exact U|]; vm_compute; discriminate).
  clear -S0 L' U'. split; nra.
Qed.

(** Threshold 3 for sigma 300; something else for 2^100. *)
Lemma wit_threshold_300 u sorted dk ix fuse wild : sorts sorted -> history u wit_config [wit_docs] dk -> open_index sorted dk = Ok ix ->
  extract_threshold fuse wild (Fin 300) ix = 3%Z.
Proof.
  intros Hs Hi E. destruct (wit_stats u sorted dk ix fuse Hs Hi E) as (m & s & Im & Is & M0 & M1 & S0 & S1).
  destruct (history_counts u wit_config 1 10 2 sorted wit_full Hs [wit_docs] dk wit_wss Hi wit_fit (wit_words u)) as (ix' & E' & Ln & Hn & Hc & _).
  rewrite E in E'. injection E' as <-.
  destruct (threshold_index ix 2 Ln Hn Hc fuse wild (Fin 300) 300 m s (is_fin 300)) as [B _]; [vm_compute; discriminate|exact Im|exact Is|].
  set (T := extract_threshold fuse wild (Fin 300) ix) in *. apply Qabs_Qle_condition in B. change (Qabs 300) with 300 in B.
  assert (C : 2 ^ (-51) * (m + 300 * s) <= 1 # 1000).
  { apply Qle_trans with (2 ^ (-51) * 4); [apply Qmult_le_l; [apply two_pos|lra]|vm_compute; discriminate]. }
  assert (D : 2 ^ (-1000) <= 1 # 1000) by (apply Qle_trans with (2 ^ (-10)); [apply two_mono; lia|vm_compute; discriminate]).
  assert (B2 : inject_Z 2 < inject_Z T /\ inject_Z T < inject_Z 4) by (change (inject_Z 2) with 2; change (inject_Z 4) with 4; lra).
  rewrite <- !Zlt_Qlt in B2. lia.
Qed.

Lemma wit_threshold_big u sorted dk ix fuse wild : sorts sorted -> history u wit_config [wit_docs] dk -> open_index sorted dk = Ok ix ->
  extract_threshold fuse wild (Fin (2 ^ 100)) ix = wild (fmuladd fuse (Fin (2 ^ 100)) (blot_sigma fuse ix) (blot_mean ix)).
Proof.
  intros Hs Hi E. destruct (wit_stats u sorted dk ix fuse Hs Hi E) as (m & s & Im & Is & M0 & M1 & S0 & S1).
  assert (X : 2 ^ 90 <= 2 ^ 100 * s).
  { apply Qle_trans with (2 ^ 100 * (99 # 10000)); [vm_compute; discriminate|apply Qmult_le_l; [apply two_pos|exact S0]]. }
  assert (Y : 2 ^ 100 * s <= 2 ^ 100) by (pose proof (two_pos 100); nra).
  assert (P90 : 0 < 2 ^ 90) by apply two_pos.
  assert (Ax : Qabs (2 ^ 100 * s) == 2 ^ 100 * s) by (apply Qabs_pos; lra). assert (Am : Qabs m == m) by (apply Qabs_pos; exact M0).
  destruct (fmuladd_error fuse (Fin (2 ^ 100)) (blot_sigma fuse ix) (blot_mean ix) (2 ^ 100) s m (is_fin _) Is Im) as (w & Iw & Ew).
  - rewrite Ax. exact Y.
  - rewrite Am. apply Qle_trans with 1; [lra|vm_compute; discriminate].
  - apply (round_to_int_big _ _ w Iw). rewrite Ax, Am in Ew. apply Qabs_Qle_condition in Ew.
    assert (C : 2 ^ (-51) * (2 ^ 100 * s + m) <= (1 # 2) * (2 ^ 100 * s + m)).
    { apply Qmult_le_compat_r; [vm_compute; discriminate|lra]. }
    assert (D : 2 ^ (-1000) <= 1) by (apply (two_mono (-1000) 0); lia).
    assert (G : 2 ^ 64 + 2 <= (1 # 2) * 2 ^ 90) by (vm_compute; discriminate). lra.
Qed.
