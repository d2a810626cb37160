(** The floating-point part of the statistics, and the threshold of the extract command. *)
From Coq Require Import QArith.
From Verif Require Import Model.Base Model.Float Model.Shard Model.Index Model.Query Model.Session Model.Extract.
Local Open Scope N_scope.

Section Fuse.
  (** Whether x*y + z is rounded once, see [fmuladd]. *)
  Variable fuse : bool.

  (** internal/shard/index.go:106-113 *)
  Definition sos_diffs (x : shard_index) (avg : float) : float :=
    fold_left (fun ttl ct => let d := fsub avg (float_of (Z.of_N ct)) in fmuladd fuse d d ttl) (si_counts x) (Fin 0).

  (** index.go:115: BlotMean *)
  Definition blot_mean (ix : index) : float :=
    fdiv (float_of (Z.of_N (st_posts (index_stats ix)))) (float_of (Z.of_N (st_blots (index_stats ix)))).
  (** index.go:116-122: BlotSigma *)
  Definition blot_sigma (ix : index) : float :=
    let sos := fold_left (fun sos shrd => fadd sos (sos_diffs shrd (blot_mean ix))) (ix_shards ix) (Fin 0) in
    fsqrt (fdiv sos (float_of (Z.of_N (st_blots (index_stats ix))))).

  (** cmd/dupi/extract.go:65-66; [s] is the value of the option -sigma. *)
  Definition extract_threshold (wild : float -> Z) (s : float) (ix : index) : Z :=
    round_to_int wild (fmuladd fuse s (blot_sigma ix) (blot_mean ix)).

  (** extract.go:61-124 with -sigma=[s] *)
  Definition extract_sigma (grow : nat -> nat) (wild : float -> Z) (ix : index) (json : bool) (s : float) (fuel k calls : nat) :=
    extract grow ix json (extract_threshold wild s ix) fuel k calls.
End Fuse.
