(** The floating-point statistics and the threshold of the extract command: C66, C67. *)
From Coq Require Import String Sorting.Sorted QArith Qabs Qpower Lqa.
From Verif Require Import Model.Base Model.Utf8 Model.Token Model.Blotter Model.Conc Model.Config Model.Index Model.Query Model.Session Model.Extract Model.Float Model.Stats.
From Verif Require Import Spec.Text Spec.Fingerprint Spec.Configs Spec.Reading Spec.Querying Spec.History Spec.Str Spec.Mean Spec.Double.
From Verif Require Import Proof.Tactics Proof.TokenP Proof.BlotterP Proof.QueryP Proof.QueryW Proof.SessionP Proof.SessionP2 Proof.ExtractP Proof.FloatP Proof.RoundP Proof.StatsP Proof.StatsP2 Proof.StatsP3 Proof.StatsP4.
From Verif Require Import Props.Extract.
Local Open Scope Q_scope.
Local Open Scope list_scope.

(** C66: BlotMean and BlotSigma are the mean and the standard deviation of the numbers of
    documents of all blots, but for the rounding of float64. [fuse] says whether the compiler
    uses fused multiply-add. *)
Theorem C66_mean_and_sigma : forall u c k m n sorted, cfg_full c k m n -> sorts sorted ->
  forall ss dk wss, history u c ss dk -> docs_fit (all_docs ss) -> words_of (word_char u) (all_docs ss) wss ->
  let mu := average (per_blot (word_hash u) k m n wss) in
  let var := variance (per_blot (word_hash u) k m n wss) in
  exists ix, open_index sorted dk = Ok ix /\ forall fuse, exists mean sigma,
    blot_mean ix = Fin mean /\ 0 <= mean /\ Qabs (mean - mu) <= 2 ^ (-51) * mu /\
    blot_sigma fuse ix = Fin sigma /\ 0 <= sigma /\
    (1 - 2 ^ (-35)) * var <= sigma * sigma /\
    sigma * sigma <= (1 + 2 ^ (-35)) * (var + (2 ^ (-51) * mu) * (2 ^ (-51) * mu)).
Proof.
  intros u c k m n sorted F S ss dk wss Hi Fit Ww mu var.
  destruct (history_counts u c k m n sorted F S ss dk wss Hi Fit Ww) as (ix & E & Ln & Hn & Hc & P).
  exists ix. split; [exact E|]. intros fuse.
  pose proof (average_perm _ _ P) as A. pose proof (variance_perm _ _ P) as V. fold mu in A. fold var in V.
  destruct (mean_index ix n Ln Hn Hc) as (x & (x' & Ex & X) & M0 & Bm). destruct (sigma_index ix n Ln Hn Hc fuse) as (s & (s' & Es & S') & S0 & L & U).
  exists x', s'. rewrite A in Bm. rewrite V in L. rewrite A, V in U. rewrite <- X in M0, Bm. rewrite <- S' in S0, L, U.
  repeat (split; [eassumption|]). eassumption.
Qed.
Print Assumptions C66_mean_and_sigma.
(** The float64 of this model: conversions give the nearest number, of two the even one; there
    is only one such number, none for what is too large; math.Sqrt gives a nearest one. *)
Theorem C66_rounding : forall x y, (exists z, round64 x = Fin z /\ z == y) <-> converted x y.
Proof. exact round64_is. Qed.
Print Assumptions C66_rounding.
Theorem C66_rounding_unique : forall x y y', converted x y -> converted x y' -> y == y'.
Proof. intros x y y' A B. apply round64_is in A, B. exact (is_fun _ _ _ A B). Qed.
Theorem C66_root : forall x, 0 < x -> double x -> exists y z, fsqrt (Fin x) = Fin z /\ z == y /\ rounded_root x y.
Proof.
  intros x P D. destruct (sqrt_pos_rounded x P D) as (y & (z & E & Z) & R). exists y, z. split; [|split; [exact Z|exact R]].
  cbn [fsqrt]. destruct (Qcompare_spec x 0); [lra|lra|exact E].
Qed.
Print Assumptions C66_root.
Example C66_rounding_example : converted (1 # 10) (3602879701896397 # 36028797018963968).
Proof. apply round64_is. exists (3602879701896397 # 36028797018963968). split; [vm_compute; reflexivity|reflexivity]. Qed.
(** Exactly, when all blots have equally many documents. *)
Theorem C66_uniform : forall u c k m n sorted, cfg_full c k m n -> sorts sorted ->
  forall ss dk wss, history u c ss dk -> docs_fit (all_docs ss) -> words_of (word_char u) (all_docs ss) wss ->
  forall d, (forall q, (q < N.of_nat n * 65536)%N -> nlen (carriers (word_hash u) k m n 0 wss q) = d) ->
  exists ix, open_index sorted dk = Ok ix /\ forall fuse, exists mean sigma,
    blot_mean ix = Fin mean /\ mean == count d /\ blot_sigma fuse ix = Fin sigma /\ sigma == 0.
Proof.
  intros u c k m n sorted F S ss dk wss Hi Fit Ww d Hd.
  destruct (history_counts u c k m n sorted F S ss dk wss Hi Fit Ww) as (ix & E & Ln & Hn & Hc & P).
  exists ix. split; [exact E|]. intros fuse.
  destruct (uniform_index ix n Ln Hn Hc fuse d) as [(x & Ex & X) (s & Es & Sg)].
  - apply Forall_forall. intros x Hx. apply (in_map count) in Hx. apply (Permutation.Permutation_in _ P) in Hx.
    unfold per_blot in Hx. apply in_map_iff in Hx. destruct Hx as (q & Eq & Hq). apply in_seq in Hq. rewrite Hd in Eq by lia.
    unfold count, inject_Z in Eq. injection Eq as Eq. lia.
  - exists x, s. auto.
Qed.
Print Assumptions C66_uniform.
(** The threshold of the extract command is the mean plus -sigma times the standard
    deviation, rounded, and the blots printed are those with at least two and at least that
    many documents. *)
Theorem C66_threshold : forall u c k m n sorted, cfg_full c k m n -> sorts sorted ->
  forall ss dk wss, history u c ss dk -> docs_fit (all_docs ss) -> words_of (word_char u) (all_docs ss) wss ->
  exists ix, open_index sorted dk = Ok ix /\ forall fuse, exists mean sigma,
    blot_mean ix = Fin mean /\ blot_sigma fuse ix = Fin sigma /\
    (forall x, Qabs x <= 2 ^ 20 -> mean + Qabs x * sigma <= 2 ^ 63 - 2 ^ 13) /\
    forall wild x, mean + Qabs x * sigma <= 2 ^ 63 - 2 ^ 13 -> exists T,
    Qabs (inject_Z T - (mean + x * sigma)) <= (1 # 2) + 2 ^ (-51) * (mean + Qabs x * sigma) + 2 ^ (-1000) /\
    forall grow fuel, (List.length (all_docs ss) < fuel)%nat -> forall json, exists k' calls out,
      extract_sigma fuse grow wild ix json (Fin x) fuel k' calls = Ok out /\ NoDup (map be_blot out) /\
      forall blot, In blot (map be_blot out) <-> (blot < N.of_nat n * 65536)%N /\
        (2 <= List.length (carriers (word_hash u) k m n 0 wss blot))%nat /\ (T <= Z.of_nat (List.length (carriers (word_hash u) k m n 0 wss blot)))%Z.
Proof.
  intros u c k m n sorted F S ss dk wss Hi Fit Ww.
  destruct (history_counts u c k m n sorted F S ss dk wss Hi Fit Ww) as (ix & E & Ln & Hn & Hc & P).
  destruct (C46_on_histories u c k m n sorted F S ss dk wss Hi Fit Ww) as (ix' & E' & X). rewrite E in E'. injection E' as <-.
  exists ix. split; [exact E|]. intros fuse.
  destruct (mean_index ix n Ln Hn Hc) as (y & (y' & Ey & Y) & _). destruct (sigma_index ix n Ln Hn Hc fuse) as (s & (s' & Es & S') & _).
  exists y', s'. split; [exact Ey|]. split; [exact Es|]. split.
  - intros x Bx. apply (small_fits ix n Ln Hn Hc fuse); [rewrite Ey; apply is_fin|rewrite Es; apply is_fin|exact Bx].
  - intros wild x Bx. exists (extract_threshold fuse wild (Fin x) ix). split.
    + apply (threshold_fits ix n Ln Hn Hc fuse wild (Fin x) x y' s'); [apply is_fin|rewrite Ey; apply is_fin|rewrite Es; apply is_fin|exact Bx].
    + intros grow fuel Lf json. destruct (X grow fuel Lf json (extract_threshold fuse wild (Fin x) ix)) as (k' & calls & out & Eo & D & B & _).
      exists k', calls, out. auto.
Qed.
Print Assumptions C66_threshold.
(** In the index of [wit_docs] two of the 131072 blots have documents, three and two. *)
Example C66_example : forall u, cfg_full wit_config 1 10 2 /\ docs_fit (all_docs [wit_docs]) /\ words_of (word_char u) (all_docs [wit_docs]) wit_wss /\
  (exists dk, history u wit_config [wit_docs] dk) /\
  average (per_blot (word_hash u) 1 10 2 wit_wss) == 5 # 131072 /\
  variance (per_blot (word_hash u) 1 10 2 wit_wss) == (13 # 131072) - (5 # 131072) * (5 # 131072).
Proof.
  intros u. split; [exact wit_full|]. split; [exact wit_fit|]. split; [exact (wit_words u)|]. split; [|split; [apply wit_average|apply wit_variance]].
  destruct wit_full as [A B C]. apply (history_exists u wit_config 1 10 2 A B C); [discriminate|reflexivity|exact wit_fit].
Qed.
(** Model/Float against known numbers: 1/10, 2/3, the root of 2, ties to even, overflow. *)
Example C66_float_example :
  fdiv (Fin 1) (Fin 10) = Fin (3602879701896397 # 36028797018963968) /\
  fdiv (Fin 2) (Fin 3) = Fin (6004799503160661 # 9007199254740992) /\
  fsqrt (Fin 2) = Fin (6369051672525773 # 4503599627370496) /\
  float_of 9007199254740993 = Fin 9007199254740992 /\ float_of 9007199254740995 = Fin 9007199254740996 /\
  fmul (Fin (2 ^ 1000)) (Fin (- 2 ^ 1000)) = Inf true /\ round_to_int (fun _ => 0%Z) (Fin (- (5 # 2))) = (-3)%Z.
Proof. repeat split; vm_compute; reflexivity. Qed.

(** C67: "With a larger -sigma, extract does not print more blots." As long as the threshold is
    an int64, which it is for every -sigma up to 2^20 (C66_threshold). *)
Theorem C67_monotone_partial : forall u c k m n sorted, cfg_full c k m n -> sorts sorted ->
  forall ss dk wss, history u c ss dk -> docs_fit (all_docs ss) -> words_of (word_char u) (all_docs ss) wss ->
  exists ix, open_index sorted dk = Ok ix /\ forall fuse, exists mean sigma,
    blot_mean ix = Fin mean /\ blot_sigma fuse ix = Fin sigma /\
    (forall x, Qabs x <= 2 ^ 20 -> mean + Qabs x * sigma <= 2 ^ 63 - 2 ^ 13) /\
    forall wild x x', mean + Qabs x * sigma <= 2 ^ 63 - 2 ^ 13 -> mean + Qabs x' * sigma <= 2 ^ 63 - 2 ^ 13 -> x <= x' ->
    forall grow fuel json k1 calls1 out k2 calls2 out', (List.length (all_docs ss) < fuel)%nat ->
      extract_sigma fuse grow wild ix json (Fin x) fuel k1 calls1 = Ok out ->
      extract_sigma fuse grow wild ix json (Fin x') fuel k2 calls2 = Ok out' ->
      incl (map be_blot out') (map be_blot out).
Proof.
  intros u c k m n sorted F S ss dk wss Hi Fit Ww.
  destruct (history_counts u c k m n sorted F S ss dk wss Hi Fit Ww) as (ix & E & Ln & Hn & Hc & P).
  destruct (C46_on_histories u c k m n sorted F S ss dk wss Hi Fit Ww) as (ix' & E' & X). rewrite E in E'. injection E' as <-.
  exists ix. split; [exact E|]. intros fuse.
  destruct (mean_index ix n Ln Hn Hc) as (y & (y' & Ey & Y) & _). destruct (sigma_index ix n Ln Hn Hc fuse) as (s & (s' & Es & S') & _).
  assert (Iy : is (blot_mean ix) y') by (rewrite Ey; apply is_fin). assert (Is : is (blot_sigma fuse ix) s') by (rewrite Es; apply is_fin).
  exists y', s'. split; [exact Ey|]. split; [exact Es|]. split; [intros x Bx; apply (small_fits ix n Ln Hn Hc fuse); assumption|].
  intros wild x x' B B' L grow fuel json k1 calls1 out k2 calls2 out' Lf E1 E2.
  pose proof (threshold_mono ix n Ln Hn Hc fuse wild (Fin x) (Fin x') x x' y' s' (is_fin x) (is_fin x') Iy Is B B' L) as T.
  destruct (X grow fuel Lf json (extract_threshold fuse wild (Fin x) ix)) as (k3 & calls3 & out3 & E3 & _ & B3 & _).
  destruct (X grow fuel Lf json (extract_threshold fuse wild (Fin x') ix)) as (k4 & calls4 & out4 & E4 & _ & B4 & _).
  unfold extract_sigma, extract in *.
  destruct (extract_any _ _ _ _ _ _ _ k1 calls1 _ _ _ E3) as [Z0|Z0]; [congruence|]. assert (out3 = out) by congruence. subst out3.
  destruct (extract_any _ _ _ _ _ _ _ k2 calls2 _ _ _ E4) as [Z|Z]; [congruence|]. assert (out4 = out') by congruence. subst out4.
  intros blot Hb. apply B4 in Hb. apply B3. destruct Hb as (H1 & H2 & H3). split; [exact H1|]. split; [exact H2|]. lia.
Qed.
Print Assumptions C67_monotone_partial.
(** Beyond, the conversion of amd64 makes the smallest int64 of it, and every blot that two
    documents have is printed, whatever the index; and with -sigma=inf and -sigma=nan always. *)
Theorem C67_overflow : forall u c k m n sorted, cfg_full c k m n -> sorts sorted ->
  forall ss dk wss, history u c ss dk -> docs_fit (all_docs ss) -> words_of (word_char u) (all_docs ss) wss ->
  exists ix, open_index sorted dk = Ok ix /\ forall fuse, exists mean sigma,
    blot_mean ix = Fin mean /\ blot_sigma fuse ix = Fin sigma /\
    forall f, (exists x, f = Fin x /\ 2 ^ 63 + 2 ^ 13 <= mean + x * sigma) \/ (forall x, f <> Fin x) ->
    forall grow fuel, (List.length (all_docs ss) < fuel)%nat -> forall json, exists k' calls out,
      extract_sigma fuse grow (fun _ => (-9223372036854775808)%Z) ix json f fuel k' calls = Ok out /\ NoDup (map be_blot out) /\
      forall blot, In blot (map be_blot out) <-> (blot < N.of_nat n * 65536)%N /\
        (2 <= List.length (carriers (word_hash u) k m n 0 wss blot))%nat.
Proof.
  intros u c k m n sorted F S ss dk wss Hi Fit Ww.
  destruct (history_counts u c k m n sorted F S ss dk wss Hi Fit Ww) as (ix & E & Ln & Hn & Hc & P).
  destruct (C46_on_histories u c k m n sorted F S ss dk wss Hi Fit Ww) as (ix' & E' & X). rewrite E in E'. injection E' as <-.
  exists ix. split; [exact E|]. intros fuse.
  destruct (mean_index ix n Ln Hn Hc) as (y & (y' & Ey & Y) & _). destruct (sigma_index ix n Ln Hn Hc fuse) as (s & (s' & Es & S') & _).
  assert (Iy : is (blot_mean ix) y') by (rewrite Ey; apply is_fin). assert (Is : is (blot_sigma fuse ix) s') by (rewrite Es; apply is_fin).
  exists y', s'. split; [exact Ey|]. split; [exact Es|]. intros f Bf grow fuel Lf json. set (wild := fun _ : float => (-9223372036854775808)%Z).
  assert (T : extract_threshold fuse wild f ix = (-9223372036854775808)%Z).
  { destruct Bf as [(x & -> & Bx) | Nf].
    - rewrite (threshold_overflows ix n Ln Hn Hc fuse wild (Fin x) x y' s' (is_fin x) Iy Is Bx). reflexivity.
    - unfold extract_threshold. rewrite Ey, Es. destruct f as [x | neg | ]; [exfalso; apply (Nf x eq_refl)| |reflexivity].
      cbn [fmuladd fmul inf_times]. destruct (Qeq_bool s' 0); reflexivity. }
  destruct (X grow fuel Lf json (extract_threshold fuse wild f ix)) as (k' & calls & out & Eo & D & B & _).
  exists k', calls, out. split; [exact Eo|]. split; [exact D|]. intros blot. rewrite B, T. split; [tauto|]. intros [H1 H2]. split; [exact H1|]. split; [exact H2|]. lia.
Qed.
Print Assumptions C67_overflow.
(** But for sigmas so large that the threshold is not an int64, where the conversion of amd64
    makes the smallest int64 of it: -sigma=300 leaves out a blot which is printed with
    -sigma=2^100. *)
Theorem C67_large_sigma_refuted : exists c docs blot,
  default_config (bs "/") (bs "x") = Ok c /\ docs_fit docs /\
  forall u sorted, sorts sorted -> (exists dk, history u c [docs] dk) /\
  forall dk, history u c [docs] dk -> exists ix, open_index sorted dk = Ok ix /\
  forall fuse grow fuel json, (List.length docs < fuel)%nat ->
    let wild := fun _ => (-9223372036854775808)%Z in
    exists k calls out k' calls' out',
      extract_sigma fuse grow wild ix json (Fin 300) fuel k calls = Ok out /\
      extract_sigma fuse grow wild ix json (Fin (2 ^ 100)) fuel k' calls' = Ok out' /\
      ~ In blot (map be_blot out) /\ In blot (map be_blot out').
Proof.
  exists wit_config, wit_docs, wit_blot2. split; [exact wit_default|]. split; [exact wit_fit|]. intros u sorted S. split.
  { destruct wit_full as [A B C]. apply (history_exists u wit_config 1 10 2 A B C); [discriminate|reflexivity|exact wit_fit]. }
  intros dk Hi. destruct (C46_on_histories u wit_config 1 10 2 sorted wit_full S [wit_docs] dk wit_wss Hi wit_fit (wit_words u)) as (ix & E & X).
  exists ix. split; [exact E|]. intros fuse grow fuel json Lf wild.
  destruct (X grow fuel Lf json (extract_threshold fuse wild (Fin 300) ix)) as (k & calls & out & E3 & _ & B3 & _).
  destruct (X grow fuel Lf json (extract_threshold fuse wild (Fin (2 ^ 100)) ix)) as (k' & calls' & out' & E4 & _ & B4 & _).
  exists k, calls, out, k', calls', out'. split; [exact E3|]. split; [exact E4|].
  rewrite B3, B4, (wit_threshold_300 u sorted dk ix fuse wild S Hi E), (wit_threshold_big u sorted dk ix fuse wild S Hi E).
  assert (Ec : List.length (carriers (word_hash u) 1 10 2 0 wit_wss wit_blot2) = 2%nat) by (rewrite wit_carriers; vm_compute; reflexivity).
  rewrite Ec. split; [lia|]. split; [vm_compute; reflexivity|]. split; [lia|]. subst wild. cbn beta. lia.
Qed.
Print Assumptions C67_large_sigma_refuted.
(** The sigmas of the partial claim: the default, and no standard deviation at all. Those
    beyond: any large one, and the infinity. *)
Example C67_example : Qabs 2 <= 2 ^ 20 /\ Qabs 0 <= 2 ^ 20 /\ Qle 0 2.
Proof. repeat split; vm_compute; discriminate. Qed.
Example C67_overflow_example : forall u sorted dk ix fuse, sorts sorted -> history u wit_config [wit_docs] dk -> open_index sorted dk = Ok ix ->
  (exists mean sigma, blot_mean ix = Fin mean /\ blot_sigma fuse ix = Fin sigma /\ 2 ^ 63 + 2 ^ 13 <= mean + 2 ^ 100 * sigma) /\ forall x, Inf false <> Fin x.
Proof.
  intros u sorted dk ix fuse Hs Hi E. split; [|discriminate].
  destruct (wit_stats u sorted dk ix fuse Hs Hi E) as (m & s & (m' & Em & Im) & (s' & Es & Is) & M0 & M1 & S0 & S1).
  exists m', s'. split; [exact Em|]. split; [exact Es|].
  assert (2 ^ 100 * (99 # 10000) <= 2 ^ 100 * s') by (apply Qmult_le_l; [apply two_pos|lra]).
  assert (2 ^ 63 + 2 ^ 13 <= 2 ^ 100 * (99 # 10000)) by (vm_compute; discriminate). lra.
Qed.
