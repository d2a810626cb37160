(** config.go and token/config.go, without the JSON encoding (Model/Json). *)
From Verif Require Import Model.Base Model.Path Model.Blotter.
Local Open Scope N_scope.

(** config.go:28-42; strings are byte strings, Go ints are Z. *)
Record config := MkConfig {
  cf_root : bytes;
  cf_seqlen : Z;
  cf_numshards : Z;
  cf_numshatters : Z;
  cf_flush : Z;
  cf_token : bytes;              (* TokenConfig.Name *)
  cf_blot : blot_config }.

(** token/config.go:30-32: "words.simple" *)
Definition words_simple : bytes :=
  [119; 111; 114; 100; 115; 46; 115; 105; 109; 112; 108; 101].
Fixpoint eq_bytes (a b : bytes) : bool :=
  match a, b with
  | [], [] => true
  | x :: a', y :: b' => (x =? y) && eq_bytes a' b'
  | _, _ => false
  end.
(** token/config.go:36-43 *)
Definition token_from_config (name : bytes) : result unit :=
  if eq_bytes name words_simple then Ok tt else Err EOther.

(** The value of a product of Go ints (64 bits wide). *)
Definition wrap64 (z : Z) : Z := ((z + 9223372036854775808) mod 18446744073709551616 - 9223372036854775808)%Z.
(** config.go:78-83 *)
Definition cfg_check (c : config) : result unit :=
  if (cf_seqlen c =? wrap64 (bc_interleave (cf_blot c) * bc_seqlen (cf_blot c)))%Z then Ok tt else Err EOther.
(** config.go:44-62 *)
Definition default_config (cwd root : bytes) : result config :=
  let c := MkConfig (path_abs cwd root) 10 2 2 16384 words_simple default_blot_config in
  do! _ <- cfg_check c; Ok c.
(** config.go:64-76 *)
Definition new_config (cwd root : bytes) (nbuckets seqlen : Z) : result config :=
  do! c <- default_config cwd root;
  let c := MkConfig (cf_root c) seqlen nbuckets (cf_numshatters c) (cf_flush c) (cf_token c) (cf_blot c) in
  do! _ <- cfg_check c; Ok c.
