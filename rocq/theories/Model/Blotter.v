(** package blotter *)
From Verif Require Import Model.Base Model.Utf8.
Local Open Scope N_scope.

(** hash/fnv New32: FNV-1, 32 bits: hash *= prime32; hash ^= uint32(c) *)
Definition fnv32 (s : bytes) : N :=
  fold_left (fun h c => N.lxor (u32 (h * 16777619)) c) s 2166136261.

(** blotter/circ.go:23-28 *)
Record circ := MkCirc { c_hashes : list N; c_hash : N; c_i : nat }.
(** blotter/circ.go:30-32; make panics on a negative length *)
Definition new_circ (n : Z) : result circ :=
  if (n <? 0)%Z then Panic else Ok (MkCirc (repeat 0 (Z.to_nat n)) 0 0).
(** blotter/circ.go:42-55 *)
Definition circ_blot (u : unicode) (c : circ) (word : bytes) : result (circ * N) :=
  let h := fnv32 (bytes_to_lower u word) in
  match nth_error (c_hashes c) (c_i c) with
  | None => Panic
  | Some old =>
      let hash := N.lxor (N.lxor (c_hash c) old) h in
      let hashes := upd (c_i c) h (c_hashes c) in
      let i := S (c_i c) in
      let i := if (i =? length hashes)%nat then O else i in
      Ok (MkCirc hashes hash i, hash)
  end.

(** blotter/interleaved.go:3-6 *)
Record interleaved := MkInter { v_circs : list circ; v_i : nat }.
(** blotter/interleaved.go:8-14 *)
Definition new_interleaved (seqlen : Z) (k : nat) : result interleaved :=
  do! c <- new_circ seqlen; Ok (MkInter (repeat c k) 0).
(** blotter/interleaved.go:26-33 *)
Definition interleaved_blot (u : unicode) (v : interleaved) (word : bytes) : result (interleaved * N) :=
  match nth_error (v_circs v) (v_i v) with
  | None => Panic
  | Some c =>
      do! (c', res) <- circ_blot u c word;
      let circs := upd (v_i v) c' (v_circs v) in
      let i := S (v_i v) in
      Ok (MkInter circs (if (i =? length circs)%nat then O else i), res)
  end.

(** blotter/t.go: the interface, with its two implementations *)
Inductive blotter := BCirc (c : circ) | BInter (v : interleaved).
Definition blotter_blot (u : unicode) (b : blotter) (word : bytes) : result (blotter * N) :=
  match b with
  | BCirc c => do! (c', r) <- circ_blot u c word; Ok (BCirc c', r)
  | BInter v => do! (v', r) <- interleaved_blot u v word; Ok (BInter v', r)
  end.

(** blotter/config.go:19-22 *)
Record blot_config := MkBlotConfig { bc_seqlen : Z; bc_interleave : Z }.
(** blotter/config.go:24-26 *)
Definition default_blot_config := MkBlotConfig 10 1.
(** blotter/config.go:28-36 *)
Definition blotter_from_config (c : blot_config) : result blotter :=
  if (bc_interleave c <? 1)%Z then Err EOther
  else if (bc_interleave c =? 1)%Z then do! r <- new_circ (bc_seqlen c); Ok (BCirc r)
  else do! r <- new_interleaved (bc_seqlen c) (Z.to_nat (bc_interleave c)); Ok (BInter r).
