(** post/t.go *)
From Verif Require Import Model.Base.
Local Open Scope N_scope.

(** post/t.go:22: type T uint64 *)
Definition post := N.
(** post/t.go:24-26: uint32(p >> 32) *)
Definition post_docid (p : post) : N := u32 (N.shiftr p 32).
(** post/t.go:32-34: uint32(p) *)
Definition post_blot (p : post) : N := u32 p.
(** post/t.go:36-38 *)
Definition post_split (p : post) : N * N := (post_docid p, post_blot p).
(** post/t.go:40-42: T(uint64(docid)<<32 | uint64(blot)) *)
Definition post_make (docid blot : N) : post :=
  N.lor (u64 (N.shiftl docid 32)) blot.
