(** Where a blot lives: the five places that compute shard and slot. [n] is the number of
    shards as a uint32. *)
From Verif Require Import Model.Base Model.Post.
Local Open Scope N_scope.

(** index.go:177-183. Modulo by zero panics. *)
Definition split_blot (n b : N) : result (N * N) :=
  let m := u32 (n * 65536) in
  if (m =? 0) || (n =? 0) then Panic
  else let b := b mod m in Ok (b mod n, u16 (b / n)).

(** index.go:185-190 *)
Definition join_blot (n shard sblot : N) : N := add32 (u32 (n * sblot)) shard.

(** shatter.go:138-142: the shard and the post for a blot *)
Definition shatter_blot (n docid b : N) : result (N * post) :=
  if n =? 0 then Panic else Ok (b mod n, post_make docid (b / n)).

(** internal/shard/indexer.go:168-170: the slot a post is filed under *)
Definition serve_slot (p : post) : N := N.land (post_blot p) 65535.

(** query.go:64-66 *)
Definition get_address (n b : N) : result (N * N) :=
  if n =? 0 then Panic else Ok (b mod n, u16 (b / n)).

(** query.go:136: the blot Next reports for slot [sblot] of shard [i] *)
Definition fill_blot_id (n i sblot : N) : N := add32 (u32 (sblot * n)) i.
