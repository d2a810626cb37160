(** Configurations under which the indexer works. *)
From Verif Require Import Model.Base Model.Blotter Model.Config Spec.Text.
Local Open Scope N_scope.

(** [c] asks for interleave [k], blotter sequence length [m] and [n] shards, with the
    sequence length consistent (Config.check) and the only tokenizer there is. *)
Record cfg_ok (c : config) (k m n : nat) : Prop := {
  co_blot : cf_blot c = MkBlotConfig (Z.of_nat m) (Z.of_nat k);
  co_seqlen : cf_seqlen c = Z.of_nat (k * m);
  co_int : (cf_seqlen c < 9223372036854775808)%Z;
  co_shards : cf_numshards c = Z.of_nat n;
  co_token : cf_token c = words_simple;
  co_k : (0 < k)%nat;
  co_m : (0 < m)%nat;
  co_n : (0 < n)%nat }.

(** The configurations an index can be made and queried with: beyond [cfg_ok], fewer than
    65536 shards and a positive flush rate. *)
Record cfg_full (c : config) (k m n : nat) : Prop := {
  cu_ok : cfg_ok c k m n;
  cu_n : N.of_nat n < 65536;
  cu_flush : (1 <= cf_flush c)%Z }.

(** Values that fit their Go types, and strings that JSON can hold. *)
Definition int64 (z : Z) : Prop := (- 9223372036854775808 <= z < 9223372036854775808)%Z.
Record cfg_values (c : config) : Prop := {
  cv_root : exists rs, is_text (cf_root c) rs;
  cv_token : exists rs, is_text (cf_token c) rs;
  cv_seqlen : int64 (cf_seqlen c);
  cv_shards : int64 (cf_numshards c);
  cv_shatters : int64 (cf_numshatters c);
  cv_flush : int64 (cf_flush c);
  cv_blot_seqlen : int64 (bc_seqlen (cf_blot c));
  cv_interleave : int64 (bc_interleave (cf_blot c)) }.
(** The sequence length is what the blotter makes of it. *)
Definition consistent (c : config) : Prop := cf_seqlen c = (bc_interleave (cf_blot c) * bc_seqlen (cf_blot c))%Z.
(** JSON's white space. *)
Definition blank (s : bytes) : Prop := Forall (fun c => In c [32; 9; 13; 10]) s.
