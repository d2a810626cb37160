(** The goroutines of an Indexer: callers of Add (indexer.go:236-253), Close
    (indexer.go:196-233), the shatter workers (shatter.go:32-58, 94-136), the goroutines
    [send] starts (shatter.go:121-130) and the shard servers
    (internal/shard/indexer.go:159-177), as a transition system.

    Granularity. A step is a channel rendezvous, a lock operation, a condition-variable
    operation or a stretch of code that touches only data of its own goroutine. Two
    stretches executed under the mutex are one step each, because everything they touch
    is only touched under the mutex: test-and-Wait (Cond.Wait registers the goroutine
    before it unlocks) and set-docid/Broadcast/Unlock. [doc2Id] is one step: a lone caller
    runs it alone; for several callers this is generous to the code, whose fnames and
    dmd.Adder are not protected at all.

    The model is generic in what a worker computes ([work]) and in what a shard does with
    a post ([absorb]); Proof/ConcRun instantiates them with [shatter_do] and [serve_post]. *)
From Verif Require Import Model.Base.
Local Open Scope N_scope.

Section Conc.
  Context {W D P S : Type}.       (* worker-local state, documents, posts, shard state *)
  Variable work : W -> N -> D -> result (W * list (list P)).
  Variable absorb : S -> P -> S.

  (** A caller of Add: the request it is sending (id and document), the documents to come. *)
  Record client := MkClient { cl_send : option (N * D); cl_docs : list D }.

  (** The goroutine that calls Close once the callers of Add are done: not yet closing;
      [MClose k]: k shutdown requests to send; [MChan j]: channels below j are closed. *)
  Inductive mstate := MRun | MClose (k : nat) | MChan (j : nat).

  (** Sender goroutines, one per shard: about to send, waiting for the acknowledgement, done *)
  Inductive gstate := GSend (ps : list P) | GAck | GDone.

  Inductive wstate :=
  | WIdle (w : W)                                     (* at <-rch *)
  | WDo (w : W) (did : N) (d : D)                     (* in do, before send *)
  | WLock (w : W) (did : N) (bs : list (list P))      (* at L.Lock, or woken inside Wait *)
  | WChk (w : W) (did : N) (bs : list (list P))       (* holds the mutex, at the loop test *)
  | WWait (w : W) (did : N) (bs : list (list P))      (* parked in Wait *)
  | WSend (w : W) (did : N) (gs : list gstate)        (* holds the mutex, at wg.Wait *)
  | WStop.

  (** Shard server: at <-postChn, working through a batch, at postChn <- nil, returned. *)
  Inductive vstate := VRecv | VBusy (ps : list P) | VAck | VStop.
  Record server := MkServer { v_st : vstate; v_shard : S; v_closed : bool }.

  Record state := MkState {
    s_clients : list client;
    s_next : N;                      (* the id dmd.Adder will give next *)
    s_main : mstate;
    s_workers : list wstate;
    s_mutex : option nat;            (* which worker holds mono.cond.L *)
    s_mono : N;                      (* mono.docid *)
    s_servers : list server }.

  Definition set_client i c st := MkState (upd i c (s_clients st)) (s_next st) (s_main st) (s_workers st) (s_mutex st) (s_mono st) (s_servers st).
  Definition set_next n st := MkState (s_clients st) n (s_main st) (s_workers st) (s_mutex st) (s_mono st) (s_servers st).
  Definition set_main m st := MkState (s_clients st) (s_next st) m (s_workers st) (s_mutex st) (s_mono st) (s_servers st).
  Definition set_worker i w st := MkState (s_clients st) (s_next st) (s_main st) (upd i w (s_workers st)) (s_mutex st) (s_mono st) (s_servers st).
  Definition set_workers ws st := MkState (s_clients st) (s_next st) (s_main st) ws (s_mutex st) (s_mono st) (s_servers st).
  Definition set_mutex m st := MkState (s_clients st) (s_next st) (s_main st) (s_workers st) m (s_mono st) (s_servers st).
  Definition set_mono d st := MkState (s_clients st) (s_next st) (s_main st) (s_workers st) (s_mutex st) d (s_servers st).
  Definition set_server j v st := MkState (s_clients st) (s_next st) (s_main st) (s_workers st) (s_mutex st) (s_mono st) (upd j v (s_servers st)).

  Definition client_done (c : client) : Prop := cl_send c = None /\ cl_docs c = [].
  Definition wake (w : wstate) : wstate := match w with WWait w did bs => WLock w did bs | x => x end.

  (** [sender i j ps g]: in state [st], sender goroutine j of worker i is in state [g]. *)
  Definition sender_at (st : state) (i j : nat) (w : W) (did : N) (gs : list gstate) (g : gstate) : Prop :=
    nth_error (s_workers st) i = Some (WSend w did gs) /\ nth_error gs j = Some g.

  Inductive step : state -> state -> Prop :=
  (** Add: fnames.addPath, dmds.Add (indexer.go:237,246-253) *)
  | StepId : forall st i c d r,
      nth_error (s_clients st) i = Some c -> cl_send c = None -> cl_docs c = d :: r ->
      step st (set_next (u32 (s_next st + 1)) (set_client i (MkClient (Some (s_next st, d)) r) st))
  (** x.shatter <- req / req := <-rch (indexer.go:242, shatter.go:46) *)
  | StepGive : forall st i c did d k w,
      nth_error (s_clients st) i = Some c -> cl_send c = Some (did, d) ->
      nth_error (s_workers st) k = Some (WIdle w) ->
      step st (set_worker k (WDo w did d) (set_client i (MkClient None (cl_docs c)) st))
  (** Close begins (indexer.go:196) *)
  | StepClose : forall st,
      s_main st = MRun -> Forall client_done (s_clients st) ->
      step st (set_main (MClose (length (s_workers st))) st)
  (** indexer.go:198-203, shatter.go:50-52 *)
  | StepShutdown : forall st n k w,
      s_main st = MClose (Datatypes.S n) -> nth_error (s_workers st) k = Some (WIdle w) ->
      step st (set_worker k WStop (set_main (MClose n) st))
  | StepShutDone : forall st, s_main st = MClose O -> step st (set_main (MChan O) st)
  (** indexer.go:204-206 *)
  | StepCloseChan : forall st j v,
      s_main st = MChan j -> nth_error (s_servers st) j = Some v ->
      step st (set_main (MChan (Datatypes.S j)) (set_server j (MkServer (v_st v) (v_shard v) true) st))
  (** shatter.go:94-111 *)
  | StepDo : forall st k w did d w' bs,
      nth_error (s_workers st) k = Some (WDo w did d) -> work w did d = Ok (w', bs) ->
      step st (set_worker k (WLock w' did bs) st)
  (** shatter.go:116 *)
  | StepLock : forall st k w did bs,
      nth_error (s_workers st) k = Some (WLock w did bs) -> s_mutex st = None ->
      step st (set_mutex (Some k) (set_worker k (WChk w did bs) st))
  (** shatter.go:117-118 *)
  | StepWait : forall st k w did bs,
      nth_error (s_workers st) k = Some (WChk w did bs) -> s_mono st <> sub32 did 1 ->
      step st (set_mutex None (set_worker k (WWait w did bs) st))
  (** shatter.go:117,121-131 *)
  | StepSpawn : forall st k w did bs,
      nth_error (s_workers st) k = Some (WChk w did bs) -> s_mono st = sub32 did 1 ->
      step st (set_worker k (WSend w did (map GSend bs)) st)
  (** A value from a sender goroutine to the shard server (shatter.go:126,
      internal/shard/indexer.go:161) *)
  | StepPost : forall st k w did gs j ps v,
      sender_at st k j w did gs (GSend ps) -> nth_error (s_servers st) j = Some v ->
      v_st v = VRecv -> v_closed v = false ->
      step st (set_worker k (WSend w did (upd j GAck gs)) (set_server j (MkServer (VBusy ps) (v_shard v) false) st))
  (** ... to another worker's sender goroutine that waits for its acknowledgement on the
      same channel (which would lose the posts) *)
  | StepSteal : forall st k w did gs j ps k' w' did' gs' v,
      sender_at st k j w did gs (GSend ps) -> sender_at st k' j w' did' gs' GAck -> k <> k' ->
      nth_error (s_servers st) j = Some v -> v_closed v = false ->
      step st (set_worker k (WSend w did (upd j GAck gs)) (set_worker k' (WSend w' did' (upd j GDone gs')) st))
  (** the acknowledgement (internal/shard/indexer.go:175, shatter.go:127-128) *)
  | StepAck : forall st k w did gs j v,
      sender_at st k j w did gs GAck -> nth_error (s_servers st) j = Some v ->
      v_st v = VAck -> v_closed v = false ->
      step st (set_worker k (WSend w did (upd j GDone gs)) (set_server j (MkServer VRecv (v_shard v) false) st))
  (** receiving from a closed channel (internal/shard/indexer.go:162-165, shatter.go:127) *)
  | StepStop : forall st j v,
      nth_error (s_servers st) j = Some v -> v_st v = VRecv -> v_closed v = true ->
      step st (set_server j (MkServer VStop (v_shard v) true) st)
  | StepAckClosed : forall st k w did gs j v,
      sender_at st k j w did gs GAck -> nth_error (s_servers st) j = Some v -> v_closed v = true ->
      step st (set_worker k (WSend w did (upd j GDone gs)) st)
  (** internal/shard/indexer.go:167-174 *)
  | StepAbsorb : forall st j v p ps,
      nth_error (s_servers st) j = Some v -> v_st v = VBusy (p :: ps) ->
      step st (set_server j (MkServer (VBusy ps) (absorb (v_shard v) p) (v_closed v)) st)
  | StepServed : forall st j v,
      nth_error (s_servers st) j = Some v -> v_st v = VBusy [] ->
      step st (set_server j (MkServer VAck (v_shard v) (v_closed v)) st)
  (** shatter.go:132-135 *)
  | StepSent : forall st k w did gs,
      nth_error (s_workers st) k = Some (WSend w did gs) -> Forall (fun g => g = GDone) gs ->
      step st (set_mutex None (set_mono did (set_workers (upd k (WIdle w) (map wake (s_workers st))) st))).

  Inductive steps : state -> state -> Prop :=
  | steps_refl : forall st, steps st st
  | steps_step : forall st1 st2 st3, steps st1 st2 -> step st2 st3 -> steps st1 st3.

  (** Executions of a given number of steps. *)
  Inductive stepsn : nat -> state -> state -> Prop :=
  | stepsn_O : forall st, stepsn O st st
  | stepsn_S : forall n st1 st2 st3, stepsn n st1 st2 -> step st2 st3 -> stepsn (Datatypes.S n) st1 st3.

  (** A goroutine that sends on a closed channel (or is blocked sending when it is closed)
      panics. *)
  Definition sends_on_closed (st : state) : Prop :=
    exists j v, nth_error (s_servers st) j = Some v /\ v_closed v = true /\
      (v_st v = VAck \/ exists k w did gs ps, sender_at st k j w did gs (GSend ps)).

  (** Initial state (indexer.go:42-84,116-160; startShatter): [n] shards' servers, workers
      with their blotters, mono at the last document id given out. *)
  Definition init (callers : list (list D)) (last : N) (ws : list W) (shards : list S) : state :=
    MkState (map (MkClient None) callers) (u32 (last + 1)) MRun (map WIdle ws) None last
      (map (fun s => MkServer VRecv s false) shards).

  (** Everything done: Close has closed the channels and every goroutine has returned. *)
  Definition final (st : state) : Prop :=
    Forall client_done (s_clients st) /\ s_main st = MChan (length (s_servers st)) /\
    Forall (fun w => w = WStop) (s_workers st) /\ Forall (fun v => v_st v = VStop) (s_servers st).
End Conc.
