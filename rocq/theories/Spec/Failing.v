(** What a session during which one write may fail is judged by. *)
From Verif Require Import Model.Base Model.Post Model.Poster Model.Shard Spec.Postings Spec.Reading.
Local Open Scope N_scope.

(** The states a shard can be in when a session starts, with the posts made so far. *)
Inductive starts : shard -> list post -> Prop :=
| starts_new : starts shard_create []
| starts_append first ss iix pos x :
    shard_sessions first ss = Ok (iix, pos) -> shard_append iix pos = Ok x ->
    starts x (first ++ concat ss).

(** Opening the files and reading slot [s] gives [ids], and their number is right. *)
Definition lists (sorted : list N -> list nat) (files : bytes * bytes) (s : nat) (ids : list N) : Prop :=
  exists si, shard_open sorted (fst files) (snd files) = Ok si /\
    reads (si_file si) (rs_posts (read_state_for si s)) ids /\
    rs_total (read_state_for si s) = nlen ids.
(** Opening the files works, but reading slot [s] to its end does not. *)
Definition unreadable (sorted : list N -> list nat) (files : bytes * bytes) (s : nat) : Prop :=
  exists si, shard_open sorted (fst files) (snd files) = Ok si /\
    forall ids, ~ reads (si_file si) (rs_posts (read_state_for si s)) ids.
