(** C01, C02: encodings. *)
From Verif Require Import Model.Base Model.Varint Model.Post Proof.Tactics Proof.VarintP.
Local Open Scope N_scope.

(** C01: every encoder/decoder pair, whatever bytes follow; the decoder consumes exactly
    what was written. Unsigned varints (deltas, path lengths), both decoders. *)
Theorem C01_uvarint_roundtrip : forall x rest, x < 2 ^ 64 ->
  uvarint (put_uvarint x ++ rest) = (x, zlen (put_uvarint x)) /\
  read_uvarint (put_uvarint x ++ rest) = Ok (x, rest).
Proof. intros; split; [apply uvarint_put | apply read_uvarint_put]; assumption. Qed.
(** Signed varints (heads, totals, chunk lengths), both decoders. *)
Theorem C01_varint_roundtrip : forall z rest, (- 2 ^ 63 <= z < 2 ^ 63)%Z ->
  varint (put_varint z ++ rest) = (z, zlen (put_varint z)) /\
  read_varint (put_varint z ++ rest) = Ok (z, rest).
Proof. intros; split; [apply varint_put | apply read_varint_put]; assumption. Qed.
(** Fixed width (document ids in tables, links, metadata). *)
Theorem C01_fixed_roundtrip : forall x rest,
  (x < 2 ^ 32 -> length (put_be32 x) = 4%nat /\ be32 (put_be32 x ++ rest) = x) /\
  (x < 2 ^ 64 -> length (put_be64 x) = 8%nat /\ be64 (put_be64 x ++ rest) = x).
Proof. intros; split; intros; split; auto using put_be32_length, put_be64_length, be32_put, be64_put. Qed.
(** Links are stored as uint64 and read as int64. *)
Theorem C01_link_roundtrip : forall z rest, (- 2 ^ 63 <= z < 2 ^ 63)%Z ->
  i64_of_u64 (be64 (put_be64 (u64_of_i64 z) ++ rest)) = z.
Proof. intros. rewrite be64_put by apply u64_of_i64_range. apply i64_u64; assumption. Qed.
(** A truncated varint is never taken for a number. *)
Theorem C01_truncated_is_error : forall x n, (n < length (put_uvarint x))%nat ->
  read_uvarint (firstn n (put_uvarint x)) = Err EOF.
Proof. exact read_uvarint_prefix. Qed.
Print Assumptions C01_uvarint_roundtrip.
Print Assumptions C01_varint_roundtrip.
Print Assumptions C01_fixed_roundtrip.
Print Assumptions C01_link_roundtrip.
Print Assumptions C01_truncated_is_error.
Example C01_example :
  put_uvarint 300 = [172; 2] /\ read_uvarint [172; 2; 255] = Ok (300, [255]) /\
  put_varint (-1) = [1] /\ read_varint [1; 7] = Ok ((-1)%Z, [7]) /\
  put_uvarint 18446744073709551615 = repeat 255 9 ++ [1] /\
  put_be64 (u64_of_i64 (-1)) = repeat 255 8.
Proof. repeat split; vm_compute; reflexivity. Qed.

(** C02 *)
Theorem C02_post_keeps_both : forall docid blot, docid < 2 ^ 32 -> blot < 2 ^ 32 ->
  post_split (post_make docid blot) = (docid, blot) /\
  post_make docid blot < 2 ^ 64.
Proof. exact post_split_make. Qed.
Theorem C02_posts_distinct : forall d1 b1 d2 b2,
  d1 < 2 ^ 32 -> b1 < 2 ^ 32 -> d2 < 2 ^ 32 -> b2 < 2 ^ 32 ->
  post_make d1 b1 = post_make d2 b2 -> d1 = d2 /\ b1 = b2.
Proof. exact post_make_inj. Qed.
Theorem C02_every_post_is_made : forall p, p < 2 ^ 64 ->
  post_make (post_docid p) (post_blot p) = p.
Proof. exact post_make_split. Qed.
Print Assumptions C02_post_keeps_both.
Print Assumptions C02_posts_distinct.
Print Assumptions C02_every_post_is_made.
Example C02_example : post_split (post_make 7 4294967295) = (7, 4294967295) /\
  post_make 7 4294967295 = 34359738367.
Proof. split; vm_compute; reflexivity. Qed.
