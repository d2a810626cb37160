(** The options of a verb as a user reads them (go doc flag), and the numbers in them. *)
From Coq Require Import String QArith.
From Verif Require Import Model.Base Model.Float Spec.Str.
Local Open Scope N_scope.
Local Open Scope list_scope.

(** ** Options *)

(** A flag takes no value, or a value of a kind. *)
Inductive fkind := NoValue | Integer | Real | Text.

Section Options.
Variable flags : bytes -> option fkind.

(** The words an option is written with: -name=value, --name=value, -name value, --name value
    (not for flags without value), -name, --name (only for flags without value: true). *)
Inductive written : bytes -> bytes -> list bytes -> Prop :=
| w_equals n v k dash : flags n = Some k -> dash = bs "-" \/ dash = bs "--" -> written n v [dash ++ n ++ bs "=" ++ v]
| w_next n v k dash : flags n = Some k -> k <> NoValue -> dash = bs "-" \/ dash = bs "--" -> written n v [dash ++ n; v]
| w_alone n dash : flags n = Some NoValue -> dash = bs "-" \/ dash = bs "--" -> written n (bs "true") [dash ++ n].

Inductive written_all : list (bytes * bytes) -> list bytes -> Prop :=
| wa_nil : written_all [] []
| wa_cons n v ws os wss : written n v ws -> written_all os wss -> written_all ((n, v) :: os) (ws ++ wss).

(** A word with which the options end: no dash, or only a dash. *)
Definition positional (w : bytes) : Prop := w = bs "-" \/ forall r, w <> 45 :: r.

(** The options and arguments of a command line: first options, then "--" or a positional
    argument, or nothing. *)
Definition reads_as (args : list bytes) (os : list (bytes * bytes)) (rest : list bytes) : Prop :=
  exists ws tail, args = ws ++ tail /\ written_all os ws /\
    (tail = bs "--" :: rest \/ tail = rest /\ (rest = [] \/ exists w r, rest = w :: r /\ positional w)).

(** A word that asks for help, where h and help are not flags themselves. *)
Definition asks_help (w : bytes) : Prop :=
  exists dash n, (dash = bs "-" \/ dash = bs "--") /\ (n = bs "h" \/ n = bs "help") /\ flags n = None /\
    (w = dash ++ n \/ exists v, w = dash ++ n ++ bs "=" ++ v).
End Options.

(** ** Values *)

Definition truth (s : bytes) (b : bool) : Prop :=
  if b then In s (map bs ["1"; "t"; "T"; "true"; "TRUE"; "True"]%string)
  else In s (map bs ["0"; "f"; "F"; "false"; "FALSE"; "False"]%string).

(** A digit and its value: 0-9, a-f and A-F. *)
Definition digit (c d : N) : Prop :=
  (d < 10 /\ c = 48 + d) \/ (10 <= d < 16 /\ (c = 87 + d \/ c = 55 + d)).
(** Digits of a base; between two of them there may be an underscore. *)
Inductive digits (base : N) : bytes -> N -> Prop :=
| d_one c d : digit c d -> d < base -> digits base [c] d
| d_more s n c d : digits base s n -> digit c d -> d < base -> digits base (s ++ [c]) (n * base + d)
| d_under s n c d : digits base s n -> digit c d -> d < base -> digits base (s ++ [95; c]) (n * base + d).
(** An integer of Go without sign: 0b, 0o or 0x (or capitals), perhaps an underscore, and
    digits; octal digits that begin with 0; decimal digits that do not. *)
Inductive natural : bytes -> N -> Prop :=
| n_prefix p base s n u :
    In (p, base) [(98, 2); (66, 2); (111, 8); (79, 8); (120, 16); (88, 16)] -> u = [] \/ u = [95] ->
    digits base s n -> natural (48 :: p :: u ++ s) n
| n_octal s n : digits 8 (48 :: s) n -> natural (48 :: s) n
| n_decimal c s n : c <> 48 -> digits 10 (c :: s) n -> natural (c :: s) n.
(** With a sign, within 64 bits. *)
Definition integer (s : bytes) (z : Z) : Prop :=
  (- 2 ^ 63 <= z < 2 ^ 63)%Z /\
  exists t n, natural t n /\
    ((s = t \/ s = bs "+" ++ t) /\ z = Z.of_N n \/ s = bs "-" ++ t /\ z = (- Z.of_N n)%Z).

(** A decimal number: sign, digits with a point somewhere, exponent. *)
Fixpoint decimal (s : bytes) (n : N) : option N :=
  match s with
  | [] => Some n
  | c :: r => if (48 <=? c) && (c <=? 57) then decimal r (n * 10 + (c - 48)) else None
  end.
Inductive signed : bytes -> bytes -> bool -> Prop :=
| s_none s : signed s s false
| s_plus s : signed (bs "+" ++ s) s false
| s_minus s : signed (bs "-" ++ s) s true.
Inductive real : bytes -> Q -> Prop :=
| r_intro s t neg whole point frac exp m e :
    signed s t neg -> t = whole ++ point ++ frac ++ exp ->
    (point = bs "." \/ point = [] /\ frac = []) -> whole ++ frac <> [] ->
    decimal (whole ++ frac) 0 = Some m ->
    (exp = [] /\ e = 0%Z \/
     exists E u ds eneg n, (E = bs "e" \/ E = bs "E") /\ exp = E ++ u /\ signed u ds eneg /\ ds <> [] /\
       decimal ds 0 = Some n /\ n < 100000 /\ e = if eneg : bool then (- Z.of_N n)%Z else Z.of_N n) ->
    real s ((if neg : bool then -1 else 1) * inject_Z (Z.of_N m) * inject_Z 10 ^ (e - Z.of_nat (List.length frac))).

(** The value last given to an option. *)
Fixpoint given (n : bytes) (os : list (bytes * bytes)) : option bytes :=
  match os with
  | [] => None
  | (n', v) :: os => match given n os with Some w => Some w | None => if list_eq_dec N.eq_dec n' n then Some v else None end
  end.

(** The flags of the verbs, from their help texts. *)
Definition has_flags (l : list (string * fkind)) (n : bytes) : option fkind :=
  fold_right (fun p r => if list_eq_dec N.eq_dec (bs (fst p)) n then Some (snd p) else r) None l.
Definition index_has := has_flags [("t", Integer); ("a", NoValue); ("v", NoValue); ("s", Integer); ("n", Integer); ("c", Text)]%string.
Definition extract_has := has_flags [("json", NoValue); ("sigma", Real); ("b", NoValue)]%string.
Definition blot_has := has_flags [("offsets", NoValue)]%string.
Definition unblot_has := has_flags [("all", NoValue)]%string.
Definition inspect_has := has_flags [("json", NoValue); ("files", NoValue)]%string.
Definition like_has := has_flags [].

(** All options have a value of their kind; [number] says which texts are numbers. *)
Definition valid (number : bytes -> float -> Prop) (flags : bytes -> option fkind) (os : list (bytes * bytes)) : Prop :=
  forall n v, In (n, v) os ->
    match flags n with
    | Some NoValue => exists b, truth v b
    | Some Integer => exists z, integer v z
    | Some Real => exists f, number v f
    | Some Text => True
    | None => False
    end.
(** What an option is set to: the value given last, or a default. *)
Definition set_to {A} (R : bytes -> A -> Prop) (n : string) (default : A) (os : list (bytes * bytes)) (a : A) : Prop :=
  match given (bs n) os with Some v => R v a | None => a = default end.
