(** The configurations that blotters and filters give of themselves. *)
From Coq Require Import String.
From Verif Require Import Model.Base Model.Utf8 Model.Blotter Model.Config Model.Bloom Spec.Str.
Local Open Scope N_scope.

(** blotter/circ.go:34-36 *)
Definition circ_config (c : circ) : blot_config := MkBlotConfig (zlen (c_hashes c)) 1.
(** blotter/interleaved.go:16-20 *)
Definition inter_config (v : interleaved) : result blot_config :=
  match v_circs v with
  | [] => Panic
  | c :: _ => Ok (MkBlotConfig (zlen (c_hashes c)) (zlen (v_circs v)))
  end.
Definition blotter_config (b : blotter) : result blot_config :=
  match b with BCirc c => Ok (circ_config c) | BInter v => inter_config v end.
(** blotter/circ.go:38-40, blotter/interleaved.go:22-24 *)
Definition interleaving (b : blotter) : Z := match b with BCirc _ => 1 | BInter v => zlen (v_circs v) end.

(** attic/ibloom/config.go:19-22 *)
Record bloom_config := MkBloomConfig { fc_name : bytes; fc_m : Z; fc_k : Z }.
(** attic/ibloom/fnv32.go:33-35 *)
Definition filter_config (b : Bloom.fnv32) : bloom_config := MkBloomConfig (bs "fnv32") (wrap64 (fl_mbytes b * 8)) (fl_k b).
(** attic/ibloom/config.go:24-31 *)
Definition filter_from_config (c : bloom_config) : result Bloom.fnv32 :=
  if eq_bytes (fc_name c) (bs "fnv32") then Ok (MkFnv32 (fc_k c) (Z.quot (fc_m c) 8)) else Err EOther.
