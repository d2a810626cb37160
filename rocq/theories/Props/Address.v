(** C03, C04: where a blot lives. *)
From Verif Require Import Model.Base Model.Post Model.Address Proof.Tactics Proof.AddressP.
Local Open Scope N_scope.

Theorem C03_join_after_split : forall n b, 1 <= n < 65536 -> b < 2 ^ 32 ->
  exists shard sblot, split_blot n b = Ok (shard, sblot) /\ shard < n /\ sblot < 65536 /\
    join_blot n shard sblot = b mod (n * 65536).
Proof. intros n b Hn _. exact (split_join_blot n b Hn). Qed.
Theorem C03_split_after_join : forall n shard sblot, 1 <= n < 65536 -> shard < n -> sblot < 65536 ->
  split_blot n (join_blot n shard sblot) = Ok (shard, sblot).
Proof. exact join_split_blot. Qed.
(** The bound is sharp: with 65536 shards SplitBlot panics (the modulus wraps to zero). *)
Theorem C03_bound_is_sharp : forall b, split_blot 65536 b = Panic.
Proof. reflexivity. Qed.
Print Assumptions C03_join_after_split.
Print Assumptions C03_split_after_join.
Print Assumptions C03_bound_is_sharp.
Example C03_example : split_blot 3 4294967295 = Ok (0, 21845) /\ join_blot 3 0 21845 = 65535 /\
  4294967295 mod (3 * 65536) = 65535.
Proof. repeat split; vm_compute; reflexivity. Qed.

(** C04: indexing files document [docid] under blot [b] in the shard and slot that a query
    consults. *)
Theorem C04_writer_and_reader_agree : forall n docid b,
  1 <= n < 2 ^ 32 -> b < 2 ^ 32 -> docid < 2 ^ 32 ->
  exists shard p, shatter_blot n docid b = Ok (shard, p) /\
    get_address n b = Ok (shard, serve_slot p) /\
    shard < n /\ serve_slot p < 65536 /\ post_docid p = docid.
Proof. exact writer_reader_agree. Qed.
Theorem C04_reduced_blot_same_place : forall n b, 1 <= n < 65536 -> b < 2 ^ 32 ->
  get_address n (b mod (n * 65536)) = get_address n b.
Proof. intros n b Hn _. exact (get_address_mod n b Hn). Qed.
Theorem C04_same_place_iff_congruent : forall n b1 b2, 1 <= n < 2 ^ 32 ->
  get_address n b1 = get_address n b2 <-> b1 mod (n * 65536) = b2 mod (n * 65536).
Proof. intros n b1 b2 Hn. apply same_address. apply Hn. Qed.
(** The blot that iteration reports for the place of [b]. *)
Theorem C04_reported_blot : forall n b, 1 <= n < 2 ^ 32 -> b < 2 ^ 32 ->
  exists shard sblot, get_address n b = Ok (shard, sblot) /\
    fill_blot_id n shard sblot = b mod (n * 65536).
Proof. exact fill_blot_id_spec. Qed.
Print Assumptions C04_writer_and_reader_agree.
Print Assumptions C04_reduced_blot_same_place.
Print Assumptions C04_same_place_iff_congruent.
Print Assumptions C04_reported_blot.
Example C04_example : exists p, shatter_blot 3 9 4000000001 = Ok (2, p) /\
  get_address 3 4000000001 = Ok (2, serve_slot p) /\ serve_slot p = 3413 /\
  get_address 3 (4000000001 mod 196608) = Ok (2, serve_slot p).
Proof. eexists. split; [vm_compute; reflexivity|]. repeat split; vm_compute; reflexivity. Qed.
