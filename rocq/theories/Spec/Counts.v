(** The table of an open index. *)
From Verif Require Import Model.Base Model.Poster Model.Shard Model.Index Model.Query.
Local Open Scope N_scope.

(** How many documents the table says blot [blot] has, in an index of [n] shards; a blot
    number is [slot * n + shard]. *)
Definition told_count (ix : index) (blot : N) : N :=
  let n := nlen (ix_shards ix) in
  match nth_error (ix_shards ix) (N.to_nat (blot mod n)) with
  | Some si => nth (N.to_nat (blot / n)) (si_counts si) 0
  | None => 0
  end.
(** No posting list with two documents or more in the table has fewer than two in the file. *)
Definition no_short_list (grow : nat -> nat) (ix : index) (fuel : nat) : Prop :=
  forall blot ds, blot < nlen (ix_shards ix) * 65536 -> 2 <= told_count ix blot ->
    query_get grow ix fuel blot None = Ok ds -> (2 <= docs_len ds)%nat.
(** The index with the list of slot [b] of its first shard gone: the table has [-1] there. *)
Definition without_list (ix : index) (b : nat) : index :=
  MkIndex (ix_cfg ix) (ix_dmd ix) (ix_fnames ix)
    (match ix_shards ix with
     | [] => []
     | s :: r => MkShardIndex (upd b (-1)%Z (si_heads s)) (si_counts s) (si_perm s) (si_file s) :: r
     end).
