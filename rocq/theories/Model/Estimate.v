(** attic/ibloom/estimate.go *)
From Coq Require Import QArith Qabs.
From Verif Require Import Model.Base Model.Float Model.Config.
Local Open Scope Q_scope.

(** math.Ln2 *)
Definition ln2 : Q := 693147180559945309417232121458176568 # 1000000000000000000000000000000000000.
(** math.Abs *)
Definition fabs (x : float) : float := match x with Fin a => Fin (Qabs a) | Inf _ => Inf false | NaN => NaN end.
Section Estimate.
  (** math.Log: an approximation of the logarithm, of which no more is said here; for the
      conversion to int see [round_to_int]. *)
  Variable log : float -> float.
  Variable wild : float -> Z.
  (** estimate.go:26-34: m and k. The products of constants are exact before they are rounded;
      the remainder has the sign of m. *)
  Definition estimate (n fpr : float) : Z * Z :=
    let a := fmul n (fabs (log fpr)) in
    let a := fdiv a (round64 (ln2 * ln2)) in
    let m := round_to_int wild a in
    let m := wrap64 (m + wrap64 (8 - Z.rem m 8)) in
    let a := float_of m in
    (m, round_to_int wild (fmul (fdiv a n) (round64 ln2))).
End Estimate.
