(** The transition system of Model/Conc with the code's workers and shard servers. *)
From Verif Require Import Model.Base Model.Utf8 Model.Token Model.Blotter Model.Post Model.Shatter Model.Shard Model.Conc Model.Config.
Local Open Scope N_scope.

(** A request as the workers see it (shatter.go:25-30): offset and data. *)
Definition req := (N * bytes)%type.
(** shatter.go:94-111 with len(s.d) = [n] *)
Definition shatter_work (u : unicode) (n : nat) (seqlen : Z) (bl : blotter) (did : N) (d : req)
  : result (blotter * list (list post)) := shatter_do u n seqlen bl did (fst d) (snd d).

(** shatter.go:32-42: [ns] workers, each with a blotter of its own; none if ns <= 0. *)
Definition start_workers (c : config) : result (list blotter) :=
  if (cf_numshatters c <=? 0)%Z then Ok []
  else do! b <- blotter_from_config (cf_blot c); Ok (repeat b (Z.to_nat (cf_numshatters c))).

Section Run.
  Variable u : unicode.
  Variable c : config.
  (** One session's goroutines: the state after IndexerFromConfig or openFromConfig
      (indexer.go:42-84,116-160), given the last document id, the shards and the documents
      that the caller will add. *)
  Definition session_start (last : N) (ws : list blotter) (shards : list shard) (docs : list req) :=
    init (P := post) [docs] last ws shards.
  Definition session_step := step (shatter_work u (Z.to_nat (cf_numshards c)) (cf_seqlen c)) serve_post.
  Definition session_steps := steps (shatter_work u (Z.to_nat (cf_numshards c)) (cf_seqlen c)) serve_post.
End Run.

(** The same goroutines with shard servers that only write down what reaches them. *)
Definition log_post (l : list post) (p : post) : list post := l ++ [p].
