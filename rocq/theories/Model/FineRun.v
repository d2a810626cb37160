(** The transition system of Model/Fine with the code's workers and shard servers. *)
From Verif Require Import Model.Base Model.Utf8 Model.Token Model.Blotter Model.Post Model.Shatter Model.Shard Model.Config Model.Run Model.Fine.

Section FineRun.
  Variable u : unicode.
  Variable c : config.
  (** As [session_start] of Model/Run (indexer.go:42-84,116-160). *)
  Definition fsession_start (last : N) (ws : list blotter) (shards : list shard) (docs : list req) :=
    fstart (P := post) (Z.to_nat (cf_numshards c)) docs last ws shards shard_create.
  (** indexer.go:64, shatter.go:34-43: [ws] has one element per worker. *)
  Definition fsession_step (ws : list blotter) :=
    fstep (shatter_work u (Z.to_nat (cf_numshards c)) (cf_seqlen c)) serve_post (length ws) (Z.to_nat (cf_numshards c)).
  Definition fsession_steps (ws : list blotter) :=
    fsteps (shatter_work u (Z.to_nat (cf_numshards c)) (cf_seqlen c)) serve_post (length ws) (Z.to_nat (cf_numshards c)).
  Definition fsession_moves (ws : list blotter) :=
    fmoves (shatter_work u (Z.to_nat (cf_numshards c)) (cf_seqlen c)) serve_post (length ws) (Z.to_nat (cf_numshards c)).
End FineRun.

(** Close has closed the channels and goes on to write the files (indexer.go:207). *)
Definition closing (m : @fmain req) : Prop := match m with FFiles | FGo _ | FEnd => True | _ => False end.
