(** Fingerprints ("blots") of windows of words. [H] is the hash of a word, [k] the
    interleave and [m] the number of words combined. *)
From Verif Require Import Model.Base.
Local Open Scope N_scope.

Definition xors (l : list N) : N := fold_right N.lxor 0 l.

(** Of the words read so far (oldest first): the last, the k-th before it, the 2k-th
    before it, ..., m of them; [None] where there are fewer. *)
Definition recent (k m : nat) (ws : list bytes) : list (option bytes) :=
  map (fun t => nth_error (rev ws) (t * k)) (seq 0 m).
Definition blot_of (H : bytes -> N) (k m : nat) (ws : list bytes) : N :=
  xors (map (fun o => match o with Some w => H w | None => 0 end) (recent k m ws)).

(** The blots of a document with words [ws]: one for each word that has k*m words
    before it. *)
Definition spec_blots (H : bytes -> N) (k m : nat) (ws : list bytes) : list N :=
  map (fun i => blot_of H k m (firstn (S i) ws)) (seq (k * m) (length ws - k * m)).

(** With [n] shards, blot b belongs to shard b mod n, under b / n. *)
Definition shard_part (n s : N) (blots : list N) : list N :=
  map (fun b => b / n) (filter (fun b => b mod n =? s) blots).

(** The blot [q] (below n*65536) is carried by the words [ws] at word number [i]. *)
Definition carries (H : bytes -> N) (k m n : nat) (ws : list bytes) (q : N) (i : nat) : Prop :=
  (k * m <= i < length ws)%nat /\
  blot_of H k m (firstn (S i) ws) mod (N.of_nat n * 65536) = q.
