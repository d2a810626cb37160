(** C119: filters of the size that ibloom.Estimate gives, whatever logarithm math.Log computes
    for the rate: [v] is its size, [x] the number of elements. *)
From Coq Require Import QArith Qround Qabs Lqa Lia ZArith.
From Verif Require Import Model.Base Model.Float Model.Bloom Model.Estimate Proof.FloatP Proof.StatsP2 Proof.EstimateP Props.Bloom.
Local Open Scope Q_scope.

(** 2^-50 *)
Definition tolerance : Q := 1 # 1125899906842624.

(** The number of bits is a multiple of 8, and up to rounding it is n |ln fpr| / (ln 2)^2 or at
    most 8 1/2 more; the number of hashes is m / n ln 2 to the nearest integer. *)
Theorem C119_sizes_partial log wild n fpr x v : is n x -> is (log fpr) (- v) ->
  1 <= x -> x <= inject_Z (2 ^ 40) -> 1 # 1099511627776 <= v -> v <= 1024 # 1 ->
  exists m k, estimate log wild n fpr = (m, k) /\ (m mod 8 = 0)%Z /\ (8 <= m)%Z /\
    x * v / (ln2 * ln2) * (1 - tolerance) < inject_Z m /\ inject_Z m <= x * v / (ln2 * ln2) * (1 + tolerance) + (17 # 2) /\
    exists w, Qabs (inject_Z k - w) <= 1 # 2 /\ Qabs (w - inject_Z m / x * ln2) <= tolerance * (inject_Z m / x * ln2).
Proof.
  intros Hn Hl X1 X2 V1 V2. destruct (estimate_spec log wild n fpr x v Hn Hl X1 X2 V1 V2) as (m & k & E & D & G & L1 & L2 & w & Ek & W1 & W2).
  exists m, k. assert (T : 4 * eps == tolerance) by reflexivity. rewrite T in L1, L2, W1, W2.
  split; [exact E|]. split; [exact D|]. split; [exact G|]. split; [exact L1|]. split; [exact L2|]. exists w. split.
  - rewrite Ek. apply round_away_error.
  - apply Qabs_Qle_condition. set (q := inject_Z m / x * ln2) in *. lra.
Qed.
Print Assumptions C119_sizes_partial.

(** For rates up to the root of 1/2, as far as eleven digits of its logarithm tell (|ln fpr| from
    0.34657359028 on), there is a hash, and with less than 2^32 bits adding goes through and what
    has been added is reported. *)
Theorem C119_filter_partial log wild n fpr x v : is n x -> is (log fpr) (- v) ->
  1 <= x -> x <= inject_Z (2 ^ 40) -> 34657359028 # 100000000000 <= v -> v <= 1024 # 1 ->
  exists m k, estimate log wild n fpr = (m, k) /\ (8 <= m)%Z /\ (1 <= k)%Z /\
    ((m < 4294967296)%Z -> forall d e, (Z.of_nat (length d) = m / 8)%Z ->
       exists d', add (MkFnv32 k (m / 8)) d e = Ok d' /\ length d' = length d /\ has (MkFnv32 k (m / 8)) d' e = Ok true).
Proof.
  intros Hn Hl X1 X2 V1 V2. pose proof (one_hash log wild n fpr x v Hn Hl X1 X2 V1 V2) as K.
  destruct (estimate_spec log wild n fpr x v Hn Hl X1 X2) as (m & k & E & D & G & _); [lra|exact V2|]. rewrite E in K. cbn [snd] in K.
  exists m, k. split; [exact E|]. split; [exact G|]. split; [exact K|]. intros M d e L.
  assert (S : (0 < fl_mbytes (MkFnv32 k (m / 8)) < 536870912)%Z).
  { cbn [fl_mbytes]. split; [apply Z.div_str_pos; lia|]. apply Z.div_lt_upper_bound; lia. }
  destruct (C50_adding_succeeds (MkFnv32 k (m / 8)) d e S L) as (d' & A & Ld). exists d'. split; [exact A|]. split; [exact Ld|].
  exact (C50_added_is_reported _ d e [] d' d' A eq_refl).
Qed.
Print Assumptions C119_filter_partial.

(** Refuted for rates above: |ln fpr| below 0.34657359027 by 4.084 / n or more, which is every rate above
    for n large enough, and with 400 elements all from 0.72 on. Then there is no hash at all, and every filter with that many, also an empty one, has every element. *)
Theorem C119_all_reported_refuted log wild n fpr x v : is n x -> is (log fpr) (- v) ->
  1 <= x -> x <= inject_Z (2 ^ 40) -> 1 # 1099511627776 <= v -> v + (4084 # 1000) / x <= 34657359027 # 100000000000 ->
  exists m, estimate log wild n fpr = (m, 0%Z) /\ (8 <= m)%Z /\ forall d e, has (MkFnv32 0 (m / 8)) d e = Ok true.
Proof.
  intros Hn Hl X1 X2 V1 V2. assert (V0 : 0 <= (4084 # 1000) / x) by (apply Qle_shift_div_l; lra).
  assert (V3 : x * v + (4084 # 1000) <= (34657359027 # 100000000000) * x).
  { assert (H : (v + (4084 # 1000) / x) * x <= (34657359027 # 100000000000) * x) by (apply Qmult_le_compat_r; [exact V2|lra]).
    assert (E : (v + (4084 # 1000) / x) * x == x * v + (4084 # 1000)) by (field; lra). rewrite E in H. exact H. }
  pose proof (no_hash log wild n fpr x v Hn Hl X1 X2 V1 V3) as K.
  destruct (estimate_spec log wild n fpr x v Hn Hl) as (m & k & E & _ & G & _); try lra; [exact X2|]. rewrite E in K. cbn [snd] in K. subst k.
  exists m. split; [exact E|]. split; [exact G|]. reflexivity.
Qed.
Print Assumptions C119_all_reported_refuted.

(** The test's 1000 elements and rate 0.15 (ln 0.15 is -1.897...), and the rate 3/4 (ln is -0.287...). *)
Example C119_test wild : estimate (fun _ => round64 (-1897119985 # 1000000000)) wild (Fin 1000) (round64 (15 # 100)) = (3952, 3)%Z.
Proof. vm_compute. reflexivity. Qed.
Example C119_three_quarters wild : estimate (fun _ => round64 (-287682072 # 1000000000)) wild (Fin 1000) (Fin (3 # 4)) = (600, 0)%Z.
Proof. vm_compute. reflexivity. Qed.
Example C119_met : is (Fin 1000) 1000 /\ is (Fin (-1 # 4)) (- (1 # 4)) /\ 1 # 1099511627776 <= (1 # 4) /\ (1 # 4) + (4084 # 1000) / 1000 <= 34657359027 # 100000000000.
Proof. split; [apply is_fin|]. split; [apply is_fin|]. split; vm_compute; discriminate. Qed.
(** The rates from 0.72 on: |ln fpr| up to 1/3. *)
Example C119_met_400 x v : 400 <= x -> v <= 1 # 3 -> v + (4084 # 1000) / x <= 34657359027 # 100000000000.
Proof. intros X V. assert (H : (4084 # 1000) / x <= 1021 # 100000) by (apply Qle_shift_div_r; lra). lra. Qed.
