(** encoding/json (Go 1.17) as far as config.go uses it, and config.go:109-160. *)
From Verif Require Import Model.Base Model.Utf8 Model.Blotter Model.Config.
Local Open Scope N_scope.

(** * Encoding *)

Definition hex_digit (n : N) : N := if n <? 10 then 48 + n else 87 + n.
(** encode.go, htmlSafeSet *)
Definition html_safe (c : N) : bool :=
  (32 <=? c) && negb ((c =? 34) || (c =? 92) || (c =? 60) || (c =? 62) || (c =? 38)).
(** encode.go, encodeState.string: the escape of an ASCII character that is not safe. *)
Definition escape (c : N) : bytes :=
  if (c =? 34) || (c =? 92) then [92; c]
  else if c =? 10 then [92; 110]
  else if c =? 13 then [92; 114]
  else if c =? 9 then [92; 116]
  else [92; 117; 48; 48; hex_digit (c / 16); hex_digit (c mod 16)].
(** encode.go, encodeState.string with escapeHTML, without the quotes; [fuel] is at least
    the length. *)
Fixpoint quote_loop (fuel : nat) (s : bytes) : bytes :=
  match s with
  | [] => []
  | c :: r =>
      match fuel with
      | O => []         (* not reached *)
      | S k =>
          if c <? 128 then (if html_safe c then [c] else escape c) ++ quote_loop k r
          else match decode_rune s with
               | None => [92; 117; 102; 102; 102; 100] ++ quote_loop k r       (* the escape of RuneError *)
               | Some (x, n) =>
                   (if (x =? 8232) || (x =? 8233) then [92; 117; 50; 48; 50; hex_digit (x mod 16)] else firstn n s)
                   ++ quote_loop k (skipn n s)
               end
      end
  end.
Definition json_string (s : bytes) : bytes := [34] ++ quote_loop (length s) s ++ [34].

(** strconv.AppendInt, base 10; the last twenty digits, more than an int64 has. *)
Fixpoint digits (fuel : nat) (n : N) : bytes :=
  match fuel with
  | O => []
  | S k => if n <? 10 then [48 + n] else digits k (n / 10) ++ [48 + n mod 10]
  end.
Definition json_int (z : Z) : bytes :=
  if (z <? 0)%Z then 45 :: digits 20 (Z.to_N (- z)) else digits 20 (Z.to_N z).

(** encode.go, structEncoder, followed by indent.go: one line per field, indented by tabs. *)
Fixpoint json_fields (ind : bytes) (fs : list (bytes * bytes)) : bytes :=
  match fs with
  | [] => []
  | [(k, v)] => [10] ++ ind ++ [34] ++ k ++ [34; 58; 32] ++ v
  | (k, v) :: r => [10] ++ ind ++ [34] ++ k ++ [34; 58; 32] ++ v ++ [44] ++ json_fields ind r
  end.
Definition json_object (depth : nat) (fs : list (bytes * bytes)) : bytes :=
  [123] ++ json_fields (repeat 9 (S depth)) fs ++ [10] ++ repeat 9 depth ++ [125].

(** The fields of config.go:28-42, token/config.go:20-23 and blotter/config.go:19-22. *)
Definition k_IndexRoot : bytes := [73; 110; 100; 101; 120; 82; 111; 111; 116].
Definition k_SeqLen : bytes := [83; 101; 113; 76; 101; 110].
Definition k_NumShards : bytes := [78; 117; 109; 83; 104; 97; 114; 100; 115].
Definition k_NumShatters : bytes := [78; 117; 109; 83; 104; 97; 116; 116; 101; 114; 115].
Definition k_DocFlushRate : bytes := [68; 111; 99; 70; 108; 117; 115; 104; 82; 97; 116; 101].
Definition k_TokenConfig : bytes := [84; 111; 107; 101; 110; 67; 111; 110; 102; 105; 103].
Definition k_BlotConfig : bytes := [66; 108; 111; 116; 67; 111; 110; 102; 105; 103].
Definition k_Name : bytes := [78; 97; 109; 101].
Definition k_Interleave : bytes := [73; 110; 116; 101; 114; 108; 101; 97; 118; 101].
(** json.MarshalIndent(cfg, "", "\t") *)
Definition marshal (c : config) : bytes :=
  json_object 0
    [(k_IndexRoot, json_string (cf_root c));
     (k_SeqLen, json_int (cf_seqlen c));
     (k_NumShards, json_int (cf_numshards c));
     (k_NumShatters, json_int (cf_numshatters c));
     (k_DocFlushRate, json_int (cf_flush c));
     (k_TokenConfig, json_object 1 [(k_Name, json_string (cf_token c))]);
     (k_BlotConfig, json_object 1 [(k_SeqLen, json_int (bc_seqlen (cf_blot c)));
                                   (k_Interleave, json_int (bc_interleave (cf_blot c)))])].

(** config.go:140-160: the file is opened without O_TRUNC and written from its start. *)
Definition config_write (old : option bytes) (c : config) : bytes :=
  let f := match old with None => [] | Some f => f end in
  let d := marshal c in
  pwrite (pwrite f 0 d) (length d) [10].

(** * Decoding *)

(** JSON values; numbers as they are written, strings decoded. *)
Inductive jval :=
| JNull
| JBool (b : bool)
| JNum (lit : bytes)
| JStr (s : bytes)
| JArr (vs : list jval)
| JObj (ms : list (bytes * jval)).

(** scanner.go, isSpace *)
Definition is_space (c : N) : bool := (c =? 32) || (c =? 9) || (c =? 13) || (c =? 10).
Fixpoint skip_space (s : bytes) : bytes :=
  match s with c :: r => if is_space c then skip_space r else s | [] => [] end.
Definition hex_value (c : N) : option N :=
  if in_range 48 57 c then Some (c - 48)
  else if in_range 97 102 c then Some (c - 87)
  else if in_range 65 70 c then Some (c - 55)
  else None.
(** decode.go, getu4, after the \u *)
Definition hex4 (s : bytes) : option (N * bytes) :=
  match s with
  | a :: b :: c :: d :: r =>
      match hex_value a, hex_value b, hex_value c, hex_value d with
      | Some a, Some b, Some c, Some d => Some (((a * 16 + b) * 16 + c) * 16 + d, r)
      | _, _, _, _ => None
      end
  | _ => None
  end.
(** scanner.go, stateInStringEsc *)
Definition unescape (c : N) : option N :=
  if (c =? 34) || (c =? 92) || (c =? 47) then Some c
  else if c =? 98 then Some 8
  else if c =? 102 then Some 12
  else if c =? 110 then Some 10
  else if c =? 114 then Some 13
  else if c =? 116 then Some 9
  else None.
(** A string after its opening quote: scanner.go, stateInString, with decode.go, unquote. *)
Fixpoint scan_string (fuel : nat) (s : bytes) : option (bytes * bytes) :=
  let add (x : bytes) (y : option (bytes * bytes)) := match y with Some (t, r) => Some (x ++ t, r) | None => None end in
  match fuel, s with
  | S k, c :: r =>
      if c =? 34 then Some ([], r)
      else if c =? 92 then
        match r with
        | 117 :: r1 =>
            match hex4 r1 with
            | None => None
            | Some (x, r2) =>
                if in_range 55296 57343 x then
                  (* a surrogate: with a second one it is a character, otherwise RuneError *)
                  match r2 with
                  | 92 :: 117 :: r3 =>
                      match hex4 r3 with
                      | Some (y, r4) =>
                          if (x <? 56320) && in_range 56320 57343 y
                          then add (encode_rune (65536 + (x - 55296) * 1024 + (y - 56320))) (scan_string k r4)
                          else add (encode_rune rune_error) (scan_string k r2)
                      | None => add (encode_rune rune_error) (scan_string k r2)
                      end
                  | _ => add (encode_rune rune_error) (scan_string k r2)
                  end
                else add (encode_rune x) (scan_string k r2)
            end
        | e :: r1 => match unescape e with Some x => add [x] (scan_string k r1) | None => None end
        | [] => None
        end
      else if c <? 32 then None
      else if c <? 128 then add [c] (scan_string k r)
      else match decode_rune s with
           | None => add (encode_rune rune_error) (scan_string k r)
           | Some (_, n) => add (firstn n s) (scan_string k (skipn n s))
           end
  | _, _ => None
  end.

Definition is_dig (c : N) : bool := in_range 48 57 c.
Fixpoint take_digits (s : bytes) : bytes * bytes :=
  match s with
  | c :: r => if is_dig c then let (a, b) := take_digits r in (c :: a, b) else ([], s)
  | [] => ([], [])
  end.
(** scanner.go, stateNeg to stateE0: the literal and what follows. *)
Definition scan_exp (s : bytes) : option (bytes * bytes) :=
  match s with
  | c :: r =>
      if (c =? 101) || (c =? 69) then
        let (sg, r) := match r with d :: r' => if (d =? 43) || (d =? 45) then ([d], r') else ([], r) | [] => ([], []) end in
        let (ds, r) := take_digits r in
        match ds with [] => None | _ => Some (c :: sg ++ ds, r) end
      else Some ([], s)
  | [] => Some ([], [])
  end.
Definition scan_frac (s : bytes) : option (bytes * bytes) :=
  match s with
  | 46 :: r => let (ds, r) := take_digits r in match ds with [] => None | _ => Some (46 :: ds, r) end
  | _ => Some ([], s)
  end.
Definition scan_number (s : bytes) : option (bytes * bytes) :=
  let (sg, s) := match s with 45 :: r => ([45], r) | _ => ([], s) end in
  match (match s with
         | 48 :: r => Some ([48], r)
         | _ => let (ds, r) := take_digits s in match ds with [] => None | _ => Some (ds, r) end
         end) with
  | None => None
  | Some (ds, r) =>
      match scan_frac r with
      | None => None
      | Some (fr, r) => match scan_exp r with None => None | Some (ex, r) => Some (sg ++ ds ++ fr ++ ex, r) end
      end
  end.
Fixpoint expect (w s : bytes) : option bytes :=
  match w, s with
  | [], _ => Some s
  | a :: w', b :: s' => if a =? b then expect w' s' else None
  | _, [] => None
  end.

(** A value (scanner.go, stateBeginValue); [s] does not start with a space. *)
Fixpoint scan_value (fuel : nat) (s : bytes) : option (jval * bytes) :=
  match fuel, s with
  | S k, c :: r =>
      if c =? 123 then
        match skip_space r with
        | 125 :: r' => Some (JObj [], r')
        | r' => match scan_members k r' with Some (ms, r2) => Some (JObj ms, r2) | None => None end
        end
      else if c =? 91 then
        match skip_space r with
        | 93 :: r' => Some (JArr [], r')
        | r' => match scan_elements k r' with Some (vs, r2) => Some (JArr vs, r2) | None => None end
        end
      else if c =? 34 then match scan_string (length r) r with Some (x, r') => Some (JStr x, r') | None => None end
      else if c =? 116 then match expect [114; 117; 101] r with Some r' => Some (JBool true, r') | None => None end
      else if c =? 102 then match expect [97; 108; 115; 101] r with Some r' => Some (JBool false, r') | None => None end
      else if c =? 110 then match expect [117; 108; 108] r with Some r' => Some (JNull, r') | None => None end
      else match scan_number s with Some (l, r') => Some (JNum l, r') | None => None end
  | _, _ => None
  end
with scan_members (fuel : nat) (s : bytes) : option (list (bytes * jval) * bytes) :=
  match fuel, s with
  | S k, 34 :: r =>
      match scan_string (length r) r with
      | None => None
      | Some (key, r1) =>
          match skip_space r1 with
          | 58 :: r2 =>
              match scan_value k (skip_space r2) with
              | None => None
              | Some (v, r3) =>
                  match skip_space r3 with
                  | 44 :: r4 => match scan_members k (skip_space r4) with Some (ms, r5) => Some ((key, v) :: ms, r5) | None => None end
                  | 125 :: r4 => Some ([(key, v)], r4)
                  | _ => None
                  end
              end
          | _ => None
          end
      end
  | _, _ => None
  end
with scan_elements (fuel : nat) (s : bytes) : option (list jval * bytes) :=
  match fuel with
  | O => None
  | S k =>
      match scan_value k s with
      | None => None
      | Some (v, r3) =>
          match skip_space r3 with
          | 44 :: r4 => match scan_elements k (skip_space r4) with Some (vs, r5) => Some (v :: vs, r5) | None => None end
          | 93 :: r4 => Some ([v], r4)
          | _ => None
          end
      end
  end.
(** The number of arrays and objects around what is innermost. *)
Fixpoint jdepth (v : jval) : N :=
  match v with
  | JArr vs => 1 + fold_right N.max 0 (map jdepth vs)
  | JObj ms => 1 + fold_right N.max 0 (map (fun m => jdepth (snd m)) ms)
  | _ => 0
  end.
(** scanner.go, maxNestingDepth and pushParseState. There the scanner stops as soon as it is
    too deep; nothing else comes of a text that is. *)
Definition too_deep (v : jval) : bool := 10000 <? jdepth v.
(** decode.go, checkValid: one value and nothing but spaces after it. *)
Definition json_parse (d : bytes) : option jval :=
  match scan_value (2 * length d + 2) (skip_space d) with
  | Some (v, r) => match skip_space r with [] => if too_deep v then None else Some v | _ => None end
  | None => None
  end.

(** fold.go: ASCII letters regardless of case, and the two other letters that fold to
    ASCII ones. *)
Definition fold_rune (r : N) : N :=
  if in_range 65 90 r then r + 32 else if r =? 8490 then 107 else if r =? 383 then 115 else r.
Definition fold_key (k : bytes) : list N := map (fun ir => fold_rune (snd ir)) (range_string k).
Definition is_field (name key : bytes) : bool := eq_bytes (fold_key name) (fold_key key).

(** decode.go, literalStore into an int: strconv.ParseInt. *)
Fixpoint undigits (acc : N) (s : bytes) : option N :=
  match s with
  | [] => Some acc
  | c :: r => if is_dig c then undigits (acc * 10 + (c - 48)) r else None
  end.
Definition parse_int (l : bytes) : option Z :=
  match l with
  | 45 :: ds => match undigits 0 ds with Some n => if n <=? 9223372036854775808 then Some (- Z.of_N n)%Z else None | None => None end
  | ds => match undigits 0 ds with Some n => if n <? 9223372036854775808 then Some (Z.of_N n) else None | None => None end
  end.
(** null leaves a field alone, a value of another kind is an error (decoding goes on, but
    Unmarshal returns it in the end). *)
Definition dec_int (v : jval) (old : Z) : option Z :=
  match v with JNull => Some old | JNum l => parse_int l | _ => None end.
Definition dec_str (v : jval) (old : bytes) : option bytes :=
  match v with JNull => Some old | JStr s => Some s | _ => None end.
(** decode.go, object: the members in turn; unknown ones are skipped. *)
Fixpoint dec_members {S : Type} (field : bytes -> jval -> S -> option S) (ms : list (bytes * jval)) (st : S) : option S :=
  match ms with
  | [] => Some st
  | (k, v) :: r => match field k v st with Some st' => dec_members field r st' | None => None end
  end.
Definition dec_object {S : Type} (field : bytes -> jval -> S -> option S) (v : jval) (st : S) : option S :=
  match v with JNull => Some st | JObj ms => dec_members field ms st | _ => None end.
Definition token_field (k : bytes) (v : jval) (st : bytes) : option bytes :=
  if is_field k_Name k then dec_str v st else Some st.
Definition blot_field (k : bytes) (v : jval) (st : blot_config) : option blot_config :=
  if is_field k_SeqLen k then option_map (fun z => MkBlotConfig z (bc_interleave st)) (dec_int v (bc_seqlen st))
  else if is_field k_Interleave k then option_map (fun z => MkBlotConfig (bc_seqlen st) z) (dec_int v (bc_interleave st))
  else Some st.
Definition config_field (k : bytes) (v : jval) (c : config) : option config :=
  let (root, sl, ns, nt, fl, tk, bl) := c in
  if is_field k_IndexRoot k then option_map (fun x => MkConfig x sl ns nt fl tk bl) (dec_str v root)
  else if is_field k_SeqLen k then option_map (fun x => MkConfig root x ns nt fl tk bl) (dec_int v sl)
  else if is_field k_NumShards k then option_map (fun x => MkConfig root sl x nt fl tk bl) (dec_int v ns)
  else if is_field k_NumShatters k then option_map (fun x => MkConfig root sl ns x fl tk bl) (dec_int v nt)
  else if is_field k_DocFlushRate k then option_map (fun x => MkConfig root sl ns nt x tk bl) (dec_int v fl)
  else if is_field k_TokenConfig k then option_map (fun x => MkConfig root sl ns nt fl x bl) (dec_object token_field v tk)
  else if is_field k_BlotConfig k then option_map (fun x => MkConfig root sl ns nt fl tk x) (dec_object blot_field v bl)
  else Some c.
Definition zero_config : config := MkConfig [] 0 0 0 0 [] (MkBlotConfig 0 0).
(** json.Unmarshal(d, &cfg) *)
Definition unmarshal (d : bytes) : option config :=
  match json_parse d with Some v => dec_object config_field v zero_config | None => None end.
(** config.go:117-138 *)
Definition read_config (file : option bytes) : result config :=
  match file with
  | None => Err EOther
  | Some d => match unmarshal d with
              | None => Err EOther
              | Some c => do! _ <- cfg_check c; Ok c
              end
  end.
