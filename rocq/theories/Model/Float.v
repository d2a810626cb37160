(** Go's float64: the arithmetic of IEEE 754 binary64, given by its definition: the exact
    result, rounded to the nearest number of the format, ties to even. A finite number is its
    value; the two zeros are one. *)
From Coq Require Import QArith Qround Qabs.
From Verif Require Import Model.Base.
Local Open Scope Q_scope.

Inductive float := Fin (x : Q) | Inf (neg : bool) | NaN.

(** The integer k with 2^k <= x < 2^(k+1), for x > 0. *)
Definition qlog2 (x : Q) : Z :=
  let k := (Z.log2 (Qnum x) - Z.log2 (Zpos (Qden x)))%Z in
  if Qle_bool (2 ^ k) x then k else (k - 1)%Z.

(** [f] or f+1, given the comparison of the number to be rounded with f + 1/2. *)
Definition nearest (f : Z) (c : comparison) : Z :=
  match c with Lt => f | Gt => (f + 1)%Z | Eq => if Z.even f then f else (f + 1)%Z end.

(** The exponent of the last of the 53 digits of a number between 2^k and 2^(k+1), or that
    of the smallest number. *)
Definition last_digit (k : Z) : Z := Z.max (k - 52) (-1074).

(** The number m * 2^e of the format, or an infinity. *)
Definition pack (neg : bool) (m e : Z) : float :=
  let y := inject_Z m * 2 ^ e in
  if Qle_bool (2 ^ 1024) y then Inf neg else Fin (Qred (if neg then - y else y)).

(** Rounding of x > 0, and of any number. *)
Definition round_pos (neg : bool) (x : Q) : float :=
  let e := last_digit (qlog2 x) in
  let y := x / 2 ^ e in
  let f := Qfloor y in
  pack neg (nearest f (y ?= inject_Z f + (1 # 2))) e.
Definition round64 (x : Q) : float :=
  match x ?= 0 with Eq => Fin 0 | Gt => round_pos false x | Lt => round_pos true (- x) end.

(** The square root of x > 0: the nearest integer to the root of x / 4^e. *)
Definition sqrt_pos (x : Q) : float :=
  let e := last_digit (Z.div2 (qlog2 x)) in
  let y := x / (2 ^ e * 2 ^ e) in
  let f := Z.sqrt (Qfloor y) in
  let h := inject_Z f + (1 # 2) in
  pack false (nearest f (y ?= h * h)) e.

Definition is_neg (x : float) : bool :=
  match x with Fin x => negb (Qle_bool 0 x) | Inf n => n | NaN => false end.

(** x + y *)
Definition fadd (x y : float) : float :=
  match x, y with
  | Fin a, Fin b => round64 (a + b)
  | NaN, _ | _, NaN => NaN
  | Inf a, Inf b => if Bool.eqb a b then Inf a else NaN
  | Inf a, _ | _, Inf a => Inf a
  end.
Definition fneg (x : float) : float :=
  match x with Fin a => Fin (Qred (- a)) | Inf n => Inf (negb n) | NaN => NaN end.
(** x - y *)
Definition fsub (x y : float) : float := fadd x (fneg y).
(** An infinity times a number. *)
Definition inf_times (n : bool) (y : float) : float :=
  match y with
  | Fin b => if Qeq_bool b 0 then NaN else Inf (xorb n (is_neg y))
  | Inf m => Inf (xorb n m)
  | NaN => NaN
  end.
(** x * y *)
Definition fmul (x y : float) : float :=
  match x, y with
  | Fin a, Fin b => round64 (a * b)
  | Inf n, _ => inf_times n y
  | _, Inf n => inf_times n x
  | _, _ => NaN
  end.
(** x*y + z. The Go specification lets the compiler round once only, and it does so on some
    architectures (not on amd64); [fuse] says whether it does. *)
Definition fmuladd (fuse : bool) (x y z : float) : float :=
  match x, y, z with
  | Fin a, Fin b, Fin c => if fuse then round64 (a * b + c) else fadd (fmul x y) z
  | _, _, _ => fadd (fmul x y) z
  end.
(** x / y *)
Definition fdiv (x y : float) : float :=
  match x, y with
  | NaN, _ | _, NaN => NaN
  | Inf _, Inf _ => NaN
  | Inf n, Fin b => Inf (xorb n (is_neg y))
  | Fin _, Inf _ => Fin 0
  | Fin a, Fin b =>
      if Qeq_bool b 0 then (if Qeq_bool a 0 then NaN else Inf (is_neg x)) else round64 (a / b)
  end.
(** math.Sqrt *)
Definition fsqrt (x : float) : float :=
  match x with
  | Fin a => match a ?= 0 with Eq => Fin 0 | Gt => sqrt_pos a | Lt => NaN end
  | Inf false => Inf false
  | _ => NaN
  end.
(** float64(n) of an integer *)
Definition float_of (n : Z) : float := round64 (inject_Z n).

(** int(math.Round(x)): halves away from zero. For NaN, infinities and what is outside of
    int64 the result of the conversion depends on the implementation: [wild]. *)
Definition round_away (x : Q) : Z :=
  if Qle_bool 0 x then Qfloor (x + (1 # 2)) else (- Qfloor (- x + (1 # 2)))%Z.
Definition round_to_int (wild : float -> Z) (x : float) : Z :=
  match x with
  | Fin a => let n := round_away a in
             if (-9223372036854775808 <=? n)%Z && (n <=? 9223372036854775807)%Z then n else wild x
  | _ => wild x
  end.
