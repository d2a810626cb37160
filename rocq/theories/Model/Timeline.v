(** The files at the moments of a run of sessions that append, as the reads of others see
    them. *)
From Verif Require Import Model.Base Model.Utf8 Model.Token Model.Blotter Model.Post Model.Poster Model.Shatter Model.Shard Model.Dmd Model.Conc Model.Config Model.Run Model.Index Model.Query Model.Session Model.Crash Model.Live.
Local Open Scope N_scope.

(** After some of the writes [ws]. Of a write that makes the file longer a reader may see a
    part; one inside the file, which is eight bytes of a link (internal/shard/poster.go:157-162),
    it sees whole or not at all. *)
Inductive wops_seen : list wop -> bytes -> bytes -> Prop :=
  | seen_here ws f : wops_seen ws f f
  | seen_end d1 d2 ws f : wops_seen ((length f, d1 ++ d2) :: ws) f (f ++ d1)
  | seen_later off d ws f f' : wops_seen ws (pwrite f off d) f' -> wops_seen ((off, d) :: ws) f f'.

(** The posting file of shard [j] while a session that found the files [dk] adds [docs]:
    between two posts, while a post is served (internal/shard/indexer.go:159-177), and while
    the shard is closed (internal/shard/indexer.go:113-118,147-158). *)
Inductive posting_at (u : unicode) (dk : disk) (docs : list (bytes * doc)) (j : nat) : bytes -> Prop :=
  | posting_between x ws st v :
      open_indexer dk = Ok (x, ws) ->
      session_steps u (x_cfg x) (session_start (adder_last (fst (x_dmds x))) ws (x_shards x) (requests docs)) st ->
      nth_error (s_servers st) j = Some v ->
      posting_at u dk docs j (x_file (v_shard v))
  | posting_within x ws st v p ps f :
      open_indexer dk = Ok (x, ws) ->
      session_steps u (x_cfg x) (session_start (adder_last (fst (x_dmds x))) ws (x_shards x) (requests docs)) st ->
      nth_error (s_servers st) j = Some v ->
      v_st v = VBusy (p :: ps) -> wops_seen (snd (serve_post_w (v_shard v) p)) (x_file (v_shard v)) f ->
      posting_at u dk docs j f
  | posting_closing x ws st v f :
      open_indexer dk = Ok (x, ws) ->
      session_steps u (x_cfg x) (session_start (adder_last (fst (x_dmds x))) ws (x_shards x) (requests docs)) st ->
      s_main st = MChan (length (s_servers st)) -> nth_error (s_servers st) j = Some v ->
      wops_seen (snd (flush_ind_w (length (x_ind (v_shard v))) 0 (v_shard v))) (x_file (v_shard v)) f ->
      posting_at u dk docs j f.

(** [P] at some moment of the sessions [news] (latest first), which start from the files
    [dk]: in the session that adds [docs], which found [dk1]. *)
Definition during (u : unicode) (dk : disk) (news : list (list (bytes * doc))) (P : disk -> list (bytes * doc) -> Prop) : Prop :=
  exists later docs earlier dk1, news = later ++ docs :: earlier /\ since u dk earlier dk1 /\ P dk1 docs.
(** What a read may find: each file as it is at some moment of these sessions, dmd with the
    last write perhaps in part ([append_stopped]). *)
Definition seen_during (u : unicode) (dk : disk) (news : list (list (bytes * doc))) (fs : files) : Prop :=
  (exists d, w_dmd fs = Some d /\ during u dk news (fun dk1 docs => exists fs', append_stopped u dk1 docs fs' /\ w_dmd fs' = Some d)) /\
  length (w_shards fs) = length (k_shards dk) /\
  forall j fl, nth_error (w_shards fs) j = Some fl -> exists p, snd fl = Some p /\ during u dk news (fun dk1 docs => posting_at u dk1 docs j p).
