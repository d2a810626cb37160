(** JSON texts (RFC 8259), and what one means as the configuration of an index. *)
From Coq Require Import String.
From Verif Require Import Model.Base Model.Blotter Model.Config Model.Json Spec.Str Spec.Text Spec.Configs.
Local Open Scope N_scope.
Local Open Scope list_scope.

(** A hexadecimal digit, and four of them. *)
Definition hex (c d : N) : Prop := (d < 10 /\ c = 48 + d) \/ (10 <= d < 16 /\ (c = 97 + (d - 10) \/ c = 65 + (d - 10))).
Inductive hex_4 : N -> bytes -> Prop :=
| hex_4_ a b c d x y z w : hex a x -> hex b y -> hex c z -> hex d w -> hex_4 (4096 * x + 256 * y + 16 * z + w) [a; b; c; d].
(** The two halves of a surrogate pair, and the character a pair is for. *)
Definition high_half (x : N) : Prop := 55296 <= x < 56320.
Definition low_half (x : N) : Prop := 56320 <= x < 57344.
Definition of_pair (x y : N) : N := 65536 + 1024 * (x - 55296) + (y - 56320).
(** The characters of a string and how they are written between the quotes. Of a half without
    the other one RFC 8259 says nothing; it is read as U+FFFD. *)
Inductive chars : list N -> bytes -> Prop :=
| ch_none : chars [] []
| ch_plain r rs t : scalar r -> 32 <= r -> r <> 34 -> r <> 92 -> chars rs t -> chars (r :: rs) (utf8 r ++ t)
| ch_short e r rs t : In (e, r) [(34, 34); (92, 92); (47, 47); (98, 8); (102, 12); (110, 10); (114, 13); (116, 9)] ->
    chars rs t -> chars (r :: rs) (92 :: e :: t)
| ch_hex x h rs t : hex_4 x h -> ~ high_half x -> ~ low_half x -> chars rs t -> chars (x :: rs) (92 :: 117 :: h ++ t)
| ch_pair x h y h' rs t : hex_4 x h -> high_half x -> hex_4 y h' -> low_half y -> chars rs t ->
    chars (of_pair x y :: rs) (92 :: 117 :: h ++ 92 :: 117 :: h' ++ t)
| ch_half x h rs t : hex_4 x h -> high_half x \/ low_half x ->
    (forall y h' t', high_half x -> t = 92 :: 117 :: h' ++ t' -> hex_4 y h' -> ~ low_half y) ->
    chars rs t -> chars (65533 :: rs) (92 :: 117 :: h ++ t).

(** Numbers. *)
Definition digit (c : N) : Prop := 48 <= c <= 57.
Definition some_digits (s : bytes) : Prop := s <> [] /\ Forall digit s.
Definition whole (s : bytes) : Prop := s = [48] \/ exists c r, s = c :: r /\ digit c /\ c <> 48 /\ Forall digit r.
Definition fraction (s : bytes) : Prop := s = [] \/ exists r, s = 46 :: r /\ some_digits r.
Definition exponential (s : bytes) : Prop :=
  s = [] \/ exists e sg r, s = e :: sg ++ r /\ In e [101; 69] /\ In sg [[]; [43]; [45]] /\ some_digits r.
Definition number (s : bytes) : Prop :=
  exists sg i f e, s = sg ++ i ++ f ++ e /\ In sg [[]; [45]] /\ whole i /\ fraction f /\ exponential e.

(** Values; white space is [blank]. *)
Inductive value : jval -> bytes -> Prop :=
| v_null : value JNull (bs "null")
| v_true : value (JBool true) (bs "true")
| v_false : value (JBool false) (bs "false")
| v_num l : number l -> value (JNum l) l
| v_str rs t : chars rs t -> value (JStr (utf8s rs)) ([34] ++ t ++ [34])
| v_arr0 w : blank w -> value (JArr []) ([91] ++ w ++ [93])
| v_arr vs t : elements vs t -> value (JArr vs) ([91] ++ t ++ [93])
| v_obj0 w : blank w -> value (JObj []) ([123] ++ w ++ [125])
| v_obj ms t : members ms t -> value (JObj ms) ([123] ++ t ++ [125])
with elements : list jval -> bytes -> Prop :=
| e_one v w t w' : blank w -> value v t -> blank w' -> elements [v] (w ++ t ++ w')
| e_more v w t w' vs s : blank w -> value v t -> blank w' -> elements vs s -> elements (v :: vs) (w ++ t ++ w' ++ [44] ++ s)
with members : list (bytes * jval) -> bytes -> Prop :=
| m_one ks k w w1 w2 v t w' : blank w -> chars ks k -> blank w1 -> blank w2 -> value v t -> blank w' ->
    members [(utf8s ks, v)] (w ++ [34] ++ k ++ [34] ++ w1 ++ [58] ++ w2 ++ t ++ w')
| m_more ks k w w1 w2 v t w' ms s : blank w -> chars ks k -> blank w1 -> blank w2 -> value v t -> blank w' -> members ms s ->
    members ((utf8s ks, v) :: ms) (w ++ [34] ++ k ++ [34] ++ w1 ++ [58] ++ w2 ++ t ++ w' ++ [44] ++ s).
(** A text is one value. *)
Definition json_text (v : jval) (d : bytes) : Prop := exists w t w', d = w ++ t ++ w' /\ blank w /\ value v t /\ blank w'.
(** Arrays and objects one in another, at most [n] of them. *)
Inductive nested : nat -> jval -> Prop :=
| n_null n : nested n JNull
| n_bool n b : nested n (JBool b)
| n_num n l : nested n (JNum l)
| n_str n s : nested n (JStr s)
| n_arr n vs : Forall (nested n) vs -> nested (S n) (JArr vs)
| n_obj n ms : Forall (fun m => nested n (snd m)) ms -> nested (S n) (JObj ms).
(** A reader may have a limit for it (RFC 8259, section 9); encoding/json's is 10000. *)
Definition shallow (v : jval) : Prop := nested (N.to_nat 10000) v.

(** A name regardless of case; two characters that are not ASCII are K and S in Unicode's case
    folding. *)
Definition same_letter (a r : N) : Prop :=
  r = a \/ (65 <= a <= 90 /\ r = a + 32) \/ (a = 75 /\ r = 8490) \/ (a = 83 /\ r = 383) \/
  (97 <= a <= 122 /\ (r + 32 = a \/ (a = 107 /\ r = 8490) \/ (a = 115 /\ r = 383))).
Definition named (name key : bytes) : Prop := exists rs, is_text key rs /\ Forall2 same_letter name rs.
(** The values of the members with a name, but for null. *)
Inductive given (name : bytes) : list (bytes * jval) -> list jval -> Prop :=
| g_none : given name [] []
| g_it k v ms vs : named name k -> v <> JNull -> given name ms vs -> given name ((k, v) :: ms) (v :: vs)
| g_other k v ms vs : ~ named name k \/ v = JNull -> given name ms vs -> given name ((k, v) :: ms) vs.
(** Integers: no fraction, no exponent. *)
Definition count_up (ds : bytes) : N := fold_left (fun n c => 10 * n + (c - 48)) ds 0.
Definition integer (v : jval) (z : Z) : Prop :=
  int64 z /\ exists ds, Forall digit ds /\
  ((v = JNum ds /\ z = Z.of_N (count_up ds)) \/ (v = JNum (45 :: ds) /\ z = (- Z.of_N (count_up ds))%Z)).
(** The last one counts; without any a field is 0 or empty. *)
Definition int_of (name : string) (ms : list (bytes * jval)) (z : Z) : Prop :=
  exists vs zs, given (bs name) ms vs /\ Forall2 integer vs zs /\ z = last zs 0%Z.
Definition str_of (name : string) (ms : list (bytes * jval)) (s : bytes) : Prop :=
  exists vs ss, given (bs name) ms vs /\ Forall2 (fun v s => v = JStr s) vs ss /\ s = last ss [].
(** Objects of the same name are put together. *)
Definition obj_of (name : string) (ms ms' : list (bytes * jval)) : Prop :=
  exists vs mss, given (bs name) ms vs /\ Forall2 (fun v m => v = JObj m) vs mss /\ ms' = List.concat mss.
(** The configuration that a value gives. *)
Definition gives_config (v : jval) (c : config) : Prop :=
  exists ms tk bl, (v = JNull /\ ms = [] \/ v = JObj ms) /\
    str_of "IndexRoot" ms (cf_root c) /\ int_of "SeqLen" ms (cf_seqlen c) /\ int_of "NumShards" ms (cf_numshards c) /\
    int_of "NumShatters" ms (cf_numshatters c) /\ int_of "DocFlushRate" ms (cf_flush c) /\
    obj_of "TokenConfig" ms tk /\ str_of "Name" tk (cf_token c) /\
    obj_of "BlotConfig" ms bl /\ int_of "SeqLen" bl (bc_seqlen (cf_blot c)) /\ int_of "Interleave" bl (bc_interleave (cf_blot c)).
(** Several texts one after another. *)
Inductive texts : list jval -> bytes -> Prop :=
| ts_none : texts [] []
| ts_more v d vs s : json_text v d -> texts vs s -> texts (v :: vs) (d ++ s).
Definition configures (d : bytes) (c : config) : Prop := exists v, json_text v d /\ shallow v /\ gives_config v c.
