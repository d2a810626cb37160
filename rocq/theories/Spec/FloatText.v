(** Floating-point numbers as Go writes them (the language's literals with a sign, and inf and
    nan), for -sigma. *)
From Coq Require Import String QArith.
From Verif Require Import Model.Base Model.Float Spec.Str Spec.Cmdline.
Local Open Scope N_scope.
Local Open Scope list_scope.

(** The words, whatever the case. *)
Definition spelled (w : string) (s : bytes) : Prop := Forall2 (fun d c => c = d \/ 65 <= c <= 90 /\ c + 32 = d) (bs w) s.
Inductive float_word : bytes -> float -> Prop :=
| fw_inf s t neg : signed s t neg -> spelled "inf" t \/ spelled "infinity" t -> float_word s (Inf neg)
| fw_nan s : spelled "nan" s -> float_word s NaN.

(** The number of digits among digits and underscores. *)
Definition ndigits (s : bytes) : nat := List.length (filter (fun c => negb (c =? 95)) s).
(** Digits of a base, with a point somewhere or without: the number they make without the
    point, and how many are behind it. *)
Inductive pointed (base : N) : bytes -> N -> nat -> Prop :=
| p_whole w n : digits base w n -> pointed base w n 0
| p_dot w n : digits base w n -> pointed base (w ++ bs ".") n 0
| p_frac f n : digits base f n -> pointed base (bs "." ++ f) n (ndigits f)
| p_both w f n m : digits base w n -> digits base f m ->
    pointed base (w ++ bs "." ++ f) (n * base ^ N.of_nat (ndigits f) + m) (ndigits f).
(** An exponent: a letter, perhaps a sign, and decimal digits. [counted]: what it counts as. *)
Inductive exponent_text (counted : N -> N -> Prop) (letters : bytes) : bytes -> Z -> Prop :=
| x_intro c u ds neg n x : In c letters -> signed u ds neg -> digits 10 ds n -> counted n x ->
    exponent_text counted letters (c :: u) (if neg : bool then - Z.of_N x else Z.of_N x).
(** Decimal and hexadecimal numbers. *)
Inductive number (counted : N -> N -> Prop) : bytes -> Q -> Prop :=
| num_decimal s neg b x m k e :
    signed s (b ++ x) neg -> pointed 10 b m k -> (x = [] /\ e = 0%Z \/ exponent_text counted (bs "eE") x e) ->
    number counted s ((if neg : bool then -1 else 1) * inject_Z (Z.of_N m) * inject_Z 10 ^ (- Z.of_nat k) * inject_Z 10 ^ e)
| num_hex s neg p u b x m k e :
    signed s (48 :: p :: u ++ b ++ x) neg -> In p (bs "xX") -> (u = [] \/ u = bs "_" /\ hd 0 b <> 46) ->
    pointed 16 b m k -> exponent_text counted (bs "pP") x e ->
    number counted s ((if neg : bool then -1 else 1) * inject_Z (Z.of_N m) * inject_Z 16 ^ (- Z.of_nat k) * inject_Z 2 ^ e).

(** An exponent counts as itself; or, if it is 100000 or more, as its first five digits. *)
Definition first_five (n x : N) : Prop := n < 100000 /\ x = n \/ exists k, x = n / 10 ^ k /\ 10000 <= x < 100000 /\ 100000 <= n.
