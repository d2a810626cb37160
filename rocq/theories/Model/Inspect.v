(** What the verb inspect prints: cmd/dupi/inspect.go:49-73 and stats.go:29-42, with fmt's verbs
    %s, %d and %.2f, encoding/json's float64 and strconv.FormatFloat (Go 1.17). *)
From Coq Require Import String QArith Qround Qabs.
From Verif Require Import Model.Base Model.Float Model.Config Model.Index Model.Query Model.Session Model.Stats Model.Json Spec.Str.
Local Open Scope N_scope.
Local Open Scope list_scope.

(** strconv.AppendUint for a uint64 *)
Definition print_u64 (n : N) : bytes := digits 20 n.

(** fmt's %.2f: strconv/ftoa.go:FormatFloat(x, 'f', 2, 64) rounds the exact decimal number,
    ties to even (decimal.go:shouldRoundUp). fmt/format.go:fmtFloat leaves +Inf its sign. *)
Definition print_2f (x : float) : bytes :=
  match x with
  | Fin a =>
      let y := (Qabs a * 100)%Q in
      let c := Z.to_N (nearest (Qfloor y) (y ?= inject_Z (Qfloor y) + (1 # 2))%Q) in
      (if Qle_bool 0 a then [] else bs "-") ++ digits 1400 (c / 100) ++ bs "." ++ [48 + c / 10 mod 10; 48 + c mod 10]
  | Inf false => bs "+Inf"
  | Inf true => bs "-Inf"
  | NaN => bs "NaN"
  end.

(** The number of decimal digits of n > 0; [fuel] is at least that. *)
Fixpoint len10 (fuel : nat) (n : Z) : Z :=
  match fuel with O => 1 | S k => if n <? 10 then 1 else 1 + len10 k (n / 10) end%Z.
(** The integer k with 10^k <= x < 10^(k+1), for x > 0. *)
Definition qlog10 (x : Q) : Z :=
  let k := (len10 (Z.to_nat (Z.log2 (Qnum x))) (Qnum x) - len10 (Z.to_nat (Z.log2 (Zpos (Qden x)))) (Zpos (Qden x)))%Z in
  if Qle_bool (inject_Z 10 ^ k) x then k else (k - 1)%Z.
(** Is x the float64 nearest to d? *)
Definition rounds_to (d x : Q) : bool := match round64 d with Fin y => Qeq_bool y x | _ => false end.
(** strconv/ftoa.go:roundShortest: with one decimal digit more at a time, whether the number cut
    off and the number rounded up are nearer to x than to any other float64; if both are, the
    nearer of them. The number is given as an integer times a power of ten. (Go 1.17 computes
    it by the algorithm of Ryu, ftoaryu.go, which has the same result.) *)
Fixpoint shortest_loop (fuel : nat) (x : Q) (e : Z) : Z * Z :=
  match fuel with
  | O => (0, e)%Z            (* not reached *)
  | S k =>
      let y := (x / inject_Z 10 ^ e)%Q in
      let f := Qfloor y in
      let down := rounds_to (inject_Z f * inject_Z 10 ^ e)%Q x in
      let up := rounds_to (inject_Z (f + 1) * inject_Z 10 ^ e)%Q x in
      if down && up then (nearest f (y ?= inject_Z f + (1 # 2))%Q, e)
      else if down then (f, e) else if up then (f + 1, e)%Z
      else shortest_loop k x (e - 1)
  end.
Definition shortest (x : Q) : Z * Z := shortest_loop 1400 x (qlog10 x + 1).
(** ftoa.go:fmtF with the shortest precision, for the digits [ds] times 10^e. *)
Definition format_f (ds : bytes) (e : Z) : bytes :=
  let nd := List.length ds in
  if (0 <=? e)%Z then ds ++ repeat 48 (Z.to_nat e)
  else
    let frac := Z.to_nat (- e) in
    if (frac <? nd)%nat then firstn (nd - frac) ds ++ bs "." ++ skipn (nd - frac) ds
    else bs "0." ++ repeat 48 (frac - nd) ++ ds.
(** ftoa.go:fmtE, and encode.go's removal of the zero of an exponent like e-09. *)
Definition format_e (ds : bytes) (e : Z) : bytes :=
  let x := (e + Z.of_nat (List.length ds) - 1)%Z in
  firstn 1 ds ++ (match skipn 1 ds with [] => [] | r => bs "." ++ r end) ++
  bs "e" ++ (if (x <? 0)%Z then bs "-" else bs "+") ++
  (let n := Z.to_N (Z.abs x) in if (n <? 10) && (0 <=? x)%Z then 48 :: digits 20 n else digits 20 n).
(** The float64 that 1e-6 is. *)
Definition millionth : Q := match round64 (1 # 1000000) with Fin c => c | _ => 0%Q end.
(** encoding/json/encode.go:floatEncoder. Infinities and NaN are errors. *)
Definition json_float (x : float) : option bytes :=
  match x with
  | Fin a =>
      if Qeq_bool a 0 then Some (bs "0")
      else
        let b := Qabs a in
        let '(d, e) := shortest b in
        let ds := digits 1400 (Z.to_N d) in
        Some ((if Qle_bool 0 a then [] else bs "-") ++
              (if negb (Qle_bool millionth b) || Qle_bool (inject_Z (10 ^ 21)) b then format_e ds e else format_f ds e))
  | _ => None
  end.

Section Fuse.
  Variable fuse : bool.
  (** stats.go:29-42, printed by inspect.go:70. *)
  Definition inspect_plain (ix : index) : bytes :=
    let st := index_stats ix in
    let line (v what : bytes) := bs "- " ++ v ++ what ++ [10] in
    bs "dupi index at " ++ cf_root (ix_cfg ix) ++ bs ":" ++ [10] ++
    [9] ++ line (print_u64 (st_docs st)) (bs " docs") ++ [9] ++ line (print_u64 (st_paths st)) (bs " nodes in path tree") ++
    [9] ++ line (print_u64 (st_posts st)) (bs " posts") ++ [9] ++ line (print_u64 (st_blots st)) (bs " blots") ++
    [9] ++ line (print_2f (blot_mean ix)) (bs " mean docs per blot") ++
    [9] ++ line (print_2f (blot_sigma fuse ix)) (bs " sigma (std deviation)").
  (** inspect.go:64-68 and stats.go:19-27: json.MarshalIndent(st, "", "\t"), without a newline
      at the end. [None]: it fails. *)
  Definition inspect_json (ix : index) : option bytes :=
    let st := index_stats ix in
    match json_float (blot_mean ix), json_float (blot_sigma fuse ix) with
    | Some mean, Some sigma =>
        Some (json_object 0
          [(bs "Root", json_string (cf_root (ix_cfg ix)));
           (bs "NumDocs", print_u64 (st_docs st)); (bs "NumPaths", print_u64 (st_paths st));
           (bs "NumPosts", print_u64 (st_posts st)); (bs "NumBlots", print_u64 (st_blots st));
           (bs "BlotMean", mean); (bs "BlotSigma", sigma)])
    | _, _ => None
    end.
  (** inspect.go:49-73: standard output and the exit status (log.Fatal: 1). Index.Stats does
      not fail here, see the list of what is not modelled. -files has no effect. *)
  Definition inspect (json : bool) (ix : index) : bytes * N :=
    if json then match inspect_json ix with Some t => (t, 0) | None => ([], 1) end
    else (inspect_plain ix, 0).
End Fuse.
