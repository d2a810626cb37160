(** What is opened and closed again, and which goroutines are started, when any system call
    may fail. Only this is kept of the functions here: what is read and written is in
    [Session], [Crash] and [CloseFault]. *)
From Verif Require Import Model.Base.

(** The files of an index; the goroutines of an Indexer: one Serve for each shard, and the
    workers of startShatter. *)
Inductive held := HLock | HConfig | HDmd | HNames | HTable (i : nat) | HPosts (i : nat) | HServe (i : nat) | HWorker (i : nat).
Inductive event := Take (h : held) | Give (h : held).

(** A function: it consumes outcomes of calls ([true]: success; calls beyond the end of the
    list succeed) and gives its events, the outcomes that are left, and whether it returned
    without an error. *)
Definition act := list bool -> list event * list bool * bool.
Definition next (o : list bool) : bool * list bool := match o with [] => (true, []) | b :: o => (b, o) end.
(** os.Open, os.OpenFile *)
Definition opening (h : held) : act := fun o => let '(ok, o) := next o in (if ok then [Take h] else [], o, ok).
(** File.Close: the descriptor is given back even if there is an error. *)
Definition closing (h : held) : act := fun o => let '(ok, o) := next o in ([Give h], o, ok).
(** Any calls that open and close nothing: reading, writing, flock, mkdir, stat, and what can
    fail without a call (decoding). *)
Definition working : act := fun o => let '(ok, o) := next o in ([], o, ok).
(** A goroutine starts, ends. *)
Definition starting (h : held) : act := fun o => ([Take h], o, true).
Definition ending (h : held) : act := fun o => ([Give h], o, true).
Definition fine : act := fun o => ([], o, true).
(** [a], and if it has no error [b] *)
Definition andthen (a b : act) : act := fun o =>
  let '(e, o, ok) := a o in
  if ok then let '(e', o, ok') := b o in (e ++ e', o, ok') else (e, o, false).
(** [a], and in any case [d]: the result is that of [a] (defer) *)
Definition deferring (d a : act) : act := fun o =>
  let '(e, o, ok) := a o in let '(e', o, _) := d o in (e ++ e', o, ok).
(** [a], and in any case [b]: an error if one of them has one *)
Definition both (a b : act) : act := fun o =>
  let '(e, o, ok) := a o in let '(e', o, ok') := b o in (e ++ e', o, ok && ok').
Notation "a ;; b" := (andthen a b) (at level 61, right associativity).
(** f, err := os.Open; if err ..; defer f.Close() *)
Definition holding (h : held) (a : act) : act := opening h ;; deferring (closing h) a.
Fixpoint in_turn (f : nat -> act) (i n : nat) : act := match n with O => fine | S n => f i ;; in_turn f (S i) n end.
Fixpoint in_any_case (f : nat -> act) (i n : nat) : act := match n with O => fine | S n => both (f i) (in_any_case f (S i) n) end.

(** lock/file.go:35-42: the error of Unlock is returned before that of Close. *)
Definition lock_close : act := both working (closing HLock).
(** config.go:117-138: ReadAll, decoding, check *)
Definition read_config_h : act := holding HConfig working.
(** internal/shard/index.go:35-47,115-148 *)
Definition shard_init_h (i : nat) : act := holding (HTable i) working ;; opening (HPosts i).
(** index.go:39-76. The file of names is closed when OpenIndex returns. *)
Definition open_index_h (n : nat) : act :=
  opening HLock ;; working ;; read_config_h ;; opening HDmd ;; holding HNames (working ;; in_turn shard_init_h 0 n).
(** index.go:78-94. The deferred function sets err when the result has been taken from it
    already, so that the error of lock.Close is lost. *)
Definition close_index_h (n : nat) : act :=
  deferring lock_close (both (closing HDmd) (in_any_case (fun i => closing (HPosts i)) 0 n)).

(** shatter.go:32-58. blotter.FromConfig fails with the first worker or not at all. *)
Definition start_shatter_h (w : nat) : act := working ;; in_turn (fun i => starting (HWorker i)) 0 w.
(** internal/shard/indexer.go:42-60 *)
Definition init_create_h (i : nat) : act := holding (HTable i) (working ;; opening (HPosts i)).
(** internal/shard/indexer.go:62-65,71-107: reading the table, then to the last chunk of each slot *)
Definition init_append_h (i : nat) : act := holding (HTable i) working ;; opening (HPosts i) ;; working.
(** indexer.go:42-83: lock, mkdir and token.FromConfig, os.Stat in NewAdder *)
Definition create_h (n w : nat) : act :=
  opening HLock ;; working ;; working ;; working ;; in_turn (fun i => init_create_h i ;; starting (HServe i)) 0 n ;; start_shatter_h w.
(** indexer.go:85-96,116-160 *)
Definition open_h (n w : nat) : act :=
  read_config_h ;; opening HLock ;; working ;; working ;; holding HNames working ;; working ;;
  in_turn (fun i => init_append_h i ;; starting (HServe i)) 0 n ;; start_shatter_h w.
(** indexer.go:236-253, dmd/adder.go:50-62,77-97: Add, which flushes the document records if
    there are enough of them ([flush]). *)
Definition add_h (flush : bool) : act := if flush then holding HDmd working else fine.
Fixpoint adds_h (l : list bool) : act := match l with [] => fine | flush :: l => both (add_h flush) (adds_h l) end.
(** internal/shard/indexer.go:113-158 *)
Definition shard_close_h (i : nat) : act := deferring (closing (HPosts i)) working ;; holding (HTable i) working.
(** indexer.go:196-233. [flush]: there are document records to write. The goroutines that
    close the shards are taken one after the other; each has its own files. *)
Definition close_h (n w : nat) (flush : bool) : act :=
  deferring lock_close
    (in_turn (fun i => ending (HWorker i)) 0 w ;; in_turn (fun i => ending (HServe i)) 0 n ;;
     holding HConfig working ;; holding HNames working ;; add_h flush ;; in_any_case shard_close_h 0 n).
