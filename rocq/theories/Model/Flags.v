(** Package flag (Go 1.17) as the verbs of cmd/dupi use it, with strconv.ParseBool, ParseInt
    (base 0) and ParseFloat. *)
From Coq Require Import String QArith.
From Verif Require Import Model.Base Model.Args Model.Float Spec.Str.
Local Open Scope N_scope.
Local Open Scope list_scope.

(** strconv/atob.go:ParseBool *)
Definition parse_bool (s : bytes) : option bool :=
  if existsb (beq s) (map bs ["1"; "t"; "T"; "true"; "TRUE"; "True"]%string) then Some true
  else if existsb (beq s) (map bs ["0"; "f"; "F"; "false"; "FALSE"; "False"]%string) then Some false
  else None.

(** strconv/atoi.go:lower *)
Definition lower (c : N) : N := N.lor c 32.
(** A digit's value, for any base up to 36 (atoi.go:ParseUint). *)
Definition digit_value (c : N) : option N :=
  if (48 <=? c) && (c <=? 57) then Some (c - 48)
  else if (97 <=? lower c) && (lower c <=? 122) then Some (lower c - 87)
  else None.
(** atoi.go:underscoreOK after sign and prefix. [seen]: what was last: nothing or another
    character, a digit, an underscore. *)
Inductive seen := SOther | SDigit | SUnder.
Fixpoint under_loop (hex : bool) (i : seen) (s : bytes) : bool :=
  match s with
  | [] => match i with SUnder => false | _ => true end
  | c :: r =>
      if ((48 <=? c) && (c <=? 57)) || (hex && (97 <=? lower c) && (lower c <=? 102)) then under_loop hex SDigit r
      else if c =? 95 then match i with SDigit => under_loop hex SUnder r | _ => false end
      else match i with SUnder => false | _ => under_loop hex SOther r end
  end.
Definition drop_sign (s : bytes) : bytes := match s with c :: r => if (c =? 43) || (c =? 45) then r else s | [] => [] end.
Definition underscore_ok (s : bytes) : bool :=
  match drop_sign s with
  | 48 :: c :: r =>
      if (lower c =? 98) || (lower c =? 111) || (lower c =? 120) then under_loop (lower c =? 120) SDigit r
      else under_loop false SOther (drop_sign s)
  | s => under_loop false SOther s
  end.
(** atoi.go:ParseUint's loop: the number and whether there were underscores. A number that is
    too large is an error later, see [parse_int]. *)
Fixpoint uint_loop (base : N) (s : bytes) (n : N) (under : bool) : option (N * bool) :=
  match s with
  | [] => Some (n, under)
  | c :: r =>
      if c =? 95 then uint_loop base r n true
      else match digit_value c with
           | Some d => if d <? base then uint_loop base r (n * base + d) under else None
           | None => None
           end
  end.
(** atoi.go:ParseUint(s, 0, 64) *)
Definition parse_uint (s : bytes) : option N :=
  let '(base, digits) :=
    match s with
    | 48 :: r =>
        match r with
        | c :: ((_ :: _) as r') =>
            if lower c =? 98 then (2, r') else if lower c =? 111 then (8, r') else if lower c =? 120 then (16, r') else (8, r)
        | _ => (8, r)
        end
    | _ => (10, s)
    end in
  match s with
  | [] => None
  | _ => match uint_loop base digits 0 false with
         | Some (n, under) => if under && negb (underscore_ok s) then None else Some n
         | None => None
         end
  end.
(** atoi.go:ParseInt(s, 0, 64) *)
Definition parse_int (s : bytes) : option Z :=
  match s with
  | [] => None
  | c :: r =>
      let neg := c =? 45 in
      match parse_uint (if neg || (c =? 43) then r else s) with
      | Some n => if neg then (if n <=? 2 ^ 63 then Some (- Z.of_N n)%Z else None)
                  else (if n <? 2 ^ 63 then Some (Z.of_N n) else None)
      | None => None
      end
  end.

(** strconv/atof.go:commonPrefixLenIgnoreCase on the whole of s: is it [w], whatever the case? *)
Definition is_word_any_case (s w : bytes) : bool :=
  beq (map (fun c => if (65 <=? c) && (c <=? 90) then c + 32 else c) s) w.
(** atof.go:special, when all of s is consumed. *)
Definition special_float (s : bytes) : option float :=
  let inf t := is_word_any_case t (bs "inf") || is_word_any_case t (bs "infinity") in
  match s with
  | 43 :: r => if inf r then Some (Inf false) else None
  | 45 :: r => if inf r then Some (Inf true) else None
  | _ => if inf s then Some (Inf false) else if is_word_any_case s (bs "nan") then Some NaN else None
  end.
(** atof.go:readFloat, the digits: the number they make without the point, the number of
    digits behind the point, whether there were digits and underscores, and the rest. *)
Fixpoint mantissa (base : N) (s : bytes) (m : N) (frac : nat) (dot digits under : bool) : N * nat * bool * bool * bytes :=
  match s with
  | [] => (m, frac, digits, under, [])
  | c :: r =>
      if c =? 95 then mantissa base r m frac dot digits true
      else if c =? 46 then if dot then (m, frac, digits, under, s) else mantissa base r m frac true digits under
      else match digit_value c with
           | Some d => if d <? base then mantissa base r (m * base + d) (if dot then S frac else frac) dot true under
                       else (m, frac, digits, under, s)
           | None => (m, frac, digits, under, s)
           end
  end.
(** The digits of the exponent; it stops growing at 10000. *)
Fixpoint exponent (s : bytes) (e : N) (under : bool) : N * bool * bytes :=
  match s with
  | [] => (e, under, [])
  | c :: r =>
      if c =? 95 then exponent r e true
      else if (48 <=? c) && (c <=? 57) then exponent r (if e <? 10000 then e * 10 + (c - 48) else e) under
      else (e, under, s)
  end.
Definition pow_q (base : Z) (e : Z) : Q := (inject_Z base ^ e)%Q.
(** atof.go:readFloat and what the number means: m * base^-frac * 10^e, or with a prefix 0x
    2^e. *)
Definition read_float (s : bytes) : option Q :=
  let neg := match s with 45 :: _ => true | _ => false end in
  let t := drop_sign s in
  let '(base, t) := match t with
                    | 48 :: c :: ((_ :: _) as r) => if lower c =? 120 then (16, r) else (10, t)
                    | _ => (10, t)
                    end in
  let '(m, frac, digits, under, rest) := mantissa base t 0 0 false false false in
  if negb digits then None
  else
    let finish (e : Z) (under : bool) (rest : bytes) :=
      match rest with
      | _ :: _ => None
      | [] => if under && negb (underscore_ok s) then None
              else let q := (inject_Z (Z.of_N m) * pow_q (Z.of_N base) (- Z.of_nat frac) * pow_q (if base =? 16 then 2 else 10) e)%Q in
                   Some (if neg then - q else q)%Q
      end in
    match rest with
    | c :: r =>
        if lower c =? (if base =? 16 then 112 else 101) then
          let '(eneg, r) := match r with 45 :: r' => (true, r') | 43 :: r' => (false, r') | _ => (false, r) end in
          match r with
          | d :: _ =>
              if (48 <=? d) && (d <=? 57) then
                let '(e, under, rest) := exponent r 0 under in
                finish (if eneg : bool then - Z.of_N e else Z.of_N e)%Z under rest
              else None
          | [] => None
          end
        else if base =? 16 then None else finish 0%Z under rest
    | [] => if base =? 16 then None else finish 0%Z under rest
    end.
(** atof.go:ParseFloat(s, 64): the nearest number; one that is too large is an error. *)
Definition parse_float (s : bytes) : option float :=
  match special_float s with
  | Some f => Some f
  | None => match read_float s with
            | Some q => match round64 q with Inf _ => None | f => Some f end
            | None => None
            end
  end.

(** The flags of a FlagSet, by name. *)
Inductive kind := KBool | KInt | KFloat | KString.
Inductive fvalue := VBool (b : bool) | VInt (z : Z) | VFloat (f : float) | VString (s : bytes).
Definition flagset := list (bytes * kind).
(** The Set methods. *)
Definition set_value (k : kind) (s : bytes) : option fvalue :=
  match k with
  | KBool => option_map VBool (parse_bool s)
  | KInt => option_map VInt (parse_int s)
  | KFloat => option_map VFloat (parse_float s)
  | KString => Some (VString s)
  end.
Fixpoint lookup {A} (name : bytes) (fs : list (bytes * A)) : option A :=
  match fs with [] => None | (n, k) :: r => if beq n name then Some k else lookup name r end.

(** What Parse does: the values set, in order, and the arguments left; or the process ends
    (flag.ExitOnError) with status 0 after -h or -help, else with 2. *)
Inductive fparsed := FDone (sets : list (bytes * fvalue)) (rest : list bytes) | FExit (status : N).
Definition then_set (name : bytes) (v : fvalue) (p : fparsed) : fparsed :=
  match p with FDone sets rest => FDone ((name, v) :: sets) rest | FExit n => FExit n end.
(** flag.go:parseOne and Parse; [fuel] is at least the number of arguments. *)
Fixpoint parse_verb (fuel : nat) (fs : flagset) (args : list bytes) : fparsed :=
  match fuel with
  | O => FDone [] args
  | S fuel =>
    match args with
    | [] => FDone [] []
    | s :: rest =>
      match s with
      | 45 :: c :: s1 =>
        if (c =? 45) && match s1 with [] => true | _ => false end then FDone [] rest
        else
          let name := if c =? 45 then s1 else c :: s1 in
          match name with
          | [] => FExit 2
          | c0 :: _ =>
            if (c0 =? 45) || (c0 =? 61) then FExit 2
            else
              let '(n, v) := cut_value name in
              match lookup n fs with
              | None => if beq n (bs "help") || beq n (bs "h") then FExit 0 else FExit 2
              | Some KBool =>
                  match set_value KBool (match v with Some v => v | None => bs "true" end) with
                  | Some x => then_set n x (parse_verb fuel fs rest)
                  | None => FExit 2
                  end
              | Some k =>
                  match (match v with Some v => Some (v, rest) | None => match rest with v :: r => Some (v, r) | [] => None end end) with
                  | None => FExit 2
                  | Some (v, rest) =>
                      match set_value k v with
                      | Some x => then_set n x (parse_verb fuel fs rest)
                      | None => FExit 2
                      end
                  end
              end
          end
      | _ => FDone [] args
      end
    end
  end.
Definition parse_args (fs : flagset) (args : list bytes) : fparsed := parse_verb (S (List.length args)) fs args.

(** The flags of the verbs: cmd/dupi/index.go:45-50, extract.go:43-45, blot.go:36,
    unblot.go:33, inspect.go:39-40 (like has none). *)
Definition index_flags : flagset :=
  [(bs "t", KInt); (bs "a", KBool); (bs "v", KBool); (bs "s", KInt); (bs "n", KInt); (bs "c", KString)].
Definition extract_flags : flagset := [(bs "json", KBool); (bs "sigma", KFloat); (bs "b", KBool)].
Definition blot_flags : flagset := [(bs "offsets", KBool)].
Definition unblot_flags : flagset := [(bs "all", KBool)].
Definition inspect_flags : flagset := [(bs "json", KBool); (bs "files", KBool)].
Definition like_flags : flagset := [].

(** The value of a flag after Parse: the last one set, or the default. *)
Fixpoint last_set (name : bytes) (sets : list (bytes * fvalue)) (v : fvalue) : fvalue :=
  match sets with [] => v | (n, x) :: r => last_set name r (if beq n name then x else v) end.
Definition get_bool (name : bytes) (sets : list (bytes * fvalue)) : bool :=
  match last_set name sets (VBool false) with VBool b => b | _ => false end.
Definition get_int (name : bytes) (d : Z) (sets : list (bytes * fvalue)) : Z :=
  match last_set name sets (VInt d) with VInt z => z | _ => d end.
Definition get_float (name : bytes) (d : float) (sets : list (bytes * fvalue)) : float :=
  match last_set name sets (VFloat d) with VFloat f => f | _ => d end.
Definition get_string (name : bytes) (sets : list (bytes * fvalue)) : bytes :=
  match last_set name sets (VString []) with VString s => s | _ => [] end.
