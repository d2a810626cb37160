(** The goroutines of an Indexer once more, with one goroutine that calls Add and then Close,
    at a finer grain than Model/Conc: each access to memory that more than one goroutine can
    reach, each operation of the mutex, the condition variable, the wait group and the
    channels and each go statement is a step of its own, and a step tells which of these it
    was (an [event]).

    Lengths of stretches of code that touch the data of one goroutine are left open: in some
    states a goroutine may make any number of accesses to certain locations before it goes
    on. The memory modelled with its contents is mono.docid, the elements of the shatters'
    slices d, the shards and the numbers given to documents; the other locations are names
    only. Not in the trace: accesses before the goroutines are started (indexer.go:42-84,
    116-160, shatter.go:32-58, each before the go statement that lets a goroutine see the memory), and the buffered channel of
    indexer.go:216-232, whose synchronisation nothing needs. *)
From Verif Require Import Model.Base.
Local Open Scope N_scope.

(** The caller; the workers (shatter.go:44); the senders started for request [rq]
    (shatter.go:124), one per shard; the shard servers (indexer.go:74,151); the goroutines
    that close the shards (indexer.go:219). *)
Inductive gid := GMain | GWorker (k : nat) | GSender (rq j : nat) | GServer (j : nat) | GCloser (j : nat).

(** Memory. Requests are numbered as they are allocated (indexer.go:199,242). *)
Inductive loc :=
| LAdder                    (* x.fnames, x.dmds and all below *)
| LReq (rq : nat)           (* a shatterReq, and the document's bytes *)
| LScratch (k : nat)        (* worker k: tokb and the blotter *)
| LField (k : nat)          (* worker k: the fields of its shatter that are never assigned, shardChns with its elements *)
| LBatch (k j : nat)        (* worker k: the element s.d[j] *)
| LPosts (rq j : nat)       (* arrays of posts for shard j allocated while serving request rq *)
| LMono                     (* mono.docid *)
| LChan (j : nat)           (* the field postChn of shard j *)
| LShard (j : nat).         (* the fields ind and postFile of shard j *)

Inductive event :=
| EAcc (g : gid) (wr : bool) (l : loc)       (* g writes (or reads) l *)
| EGo (g h : gid)                            (* g starts h *)
| EMeet (g h : gid)                          (* g sends and h receives on an unbuffered channel *)
| ELock (g : gid) | EUnlock (g : gid)        (* mono.cond.L *)
| EDone (g : gid) (rq : nat)                 (* wg.Done; one wait group for each request *)
| EWait (g : gid) (rq : nat)                 (* wg.Wait returns *)
| EClose (g : gid) (j : nat)                 (* g closes the channel of shard j *)
| EClosed (g : gid) (j : nat).               (* g receives from it when it is closed *)

Definition setf {A} (i : nat) (x : A) (f : nat -> A) : nat -> A := fun i' => if (i' =? i)%nat then x else f i'.

Section Fine.
  Context {W D P S : Type}.
  Variable work : W -> N -> D -> result (W * list (list P)).
  Variable absorb : S -> P -> S.
  (** A slice of posts: the request while which its array was allocated, if there is one
      (all arrays one request allocates for one shard go by one name), and its elements. *)
  Definition slice := (option nat * list P)%type.
  Definition nil_slice : slice := (None, []).
  (** Numbers of workers and of shards. *)
  Variables nw n : nat.

  (** The caller. *)
  Inductive fmain :=
  | FAdd (docs : list D)                          (* before the next Add, or Close if there is none *)
  | FReq (did : N) (d : D) (docs : list D)        (* in Add, with the number of the document *)
  | FSend (rq : nat) (did : N) (d : D) (docs : list D)   (* at x.shatter <- req *)
  | FStop (k : nat)                               (* in Close: k requests to shut down still to be sent *)
  | FStopSend (rq k : nat)                        (* sending one, k after it *)
  | FChan (j : nat)                               (* at close(x.shards[j].PostChan()) *)
  | FClose (j : nat)                              (* has read the channel *)
  | FFiles                                        (* config.Write, writeFiles, dmds.Close *)
  | FGo (j : nat)                                 (* starts the goroutines that close the shards *)
  | FEnd.

  Inductive fworker :=
  | WIdle (w : W)                                 (* at <-rch *)
  | WGot (w : W) (rq : nat) (did : N) (d : D)     (* has received a request *)
  | WQuit (rq : nat)                              (* has received one to shut down *)
  | WDo (w : W) (rq : nat) (did : N) (d : D)      (* in do *)
  | WStore (w : W) (rq : nat) (did : N) (bs : list (list P)) (j : nat)   (* appends its posts to s.d, before s.d[j] *)
  | WLock (w : W) (rq : nat) (did : N)            (* at L.Lock, or woken in Wait *)
  | WChk (w : W) (rq : nat) (did : N)             (* at the test of the loop *)
  | WReg (w : W) (rq : nat) (did : N) (woken : bool)   (* in Wait: registered, before L.Unlock *)
  | WPark (w : W) (rq : nat) (did : N)            (* in Wait: parked *)
  | WSpawn (w : W) (rq : nat) (did : N) (i : nat) (* at the range loop, before s.d[i]; for i = n at wg.Wait *)
  | WGo (w : W) (rq : nat) (did : N) (i : nat) (ps : slice)   (* has read s.d[i] *)
  | WSet (w : W) (rq : nat) (did : N)             (* after wg.Wait *)
  | WBcast (w : W) (rq : nat) (did : N)           (* at Broadcast *)
  | WUnl (w : W)                                  (* at Unlock *)
  | WStop.

  Inductive fsender :=
  | GOff                                          (* not started, or ended *)
  | GStart (rq : nat) (ps : slice)
  | GSend (rq : nat) (ps : slice)
  | GAck (rq : nat)
  | GReset (rq : nat)                             (* at s.d[i] = nil *)
  | GWg (rq : nat)                                (* at wg.Done *)
  | GEnd (rq : nat).

  Inductive fserver :=
  | SRead                                         (* before it reads x.postChn to receive *)
  | SRecv
  | SBusy (a : option nat) (ps : list P)         (* the posts left of a slice with that array *)
  | SAck
  | SEnd                                          (* at x.postChn = nil *)
  | SStop.

  Inductive fcloser := COff | CRun | CDone.

  Record fstate := MkF {
    f_main : fmain;
    f_next : N;                        (* the number dmds.Add will give next *)
    f_count : nat;                     (* requests allocated *)
    f_worker : nat -> fworker;
    f_d : nat -> nat -> slice;        (* s.d[j] of worker k *)
    f_send : nat -> nat -> fsender;    (* sender j of worker k *)
    f_mutex : option nat;
    f_mono : N;
    f_srv : nat -> fserver;
    f_shard : nat -> S;
    f_closed : nat -> bool;            (* the channel of shard j *)
    f_closer : nat -> fcloser }.

  Definition with_main m s := MkF m (f_next s) (f_count s) (f_worker s) (f_d s) (f_send s) (f_mutex s) (f_mono s) (f_srv s) (f_shard s) (f_closed s) (f_closer s).
  Definition with_next x s := MkF (f_main s) x (f_count s) (f_worker s) (f_d s) (f_send s) (f_mutex s) (f_mono s) (f_srv s) (f_shard s) (f_closed s) (f_closer s).
  Definition with_count x s := MkF (f_main s) (f_next s) x (f_worker s) (f_d s) (f_send s) (f_mutex s) (f_mono s) (f_srv s) (f_shard s) (f_closed s) (f_closer s).
  Definition with_workers x s := MkF (f_main s) (f_next s) (f_count s) x (f_d s) (f_send s) (f_mutex s) (f_mono s) (f_srv s) (f_shard s) (f_closed s) (f_closer s).
  Definition with_d x s := MkF (f_main s) (f_next s) (f_count s) (f_worker s) x (f_send s) (f_mutex s) (f_mono s) (f_srv s) (f_shard s) (f_closed s) (f_closer s).
  Definition with_send x s := MkF (f_main s) (f_next s) (f_count s) (f_worker s) (f_d s) x (f_mutex s) (f_mono s) (f_srv s) (f_shard s) (f_closed s) (f_closer s).
  Definition with_mutex x s := MkF (f_main s) (f_next s) (f_count s) (f_worker s) (f_d s) (f_send s) x (f_mono s) (f_srv s) (f_shard s) (f_closed s) (f_closer s).
  Definition with_mono x s := MkF (f_main s) (f_next s) (f_count s) (f_worker s) (f_d s) (f_send s) (f_mutex s) x (f_srv s) (f_shard s) (f_closed s) (f_closer s).
  Definition with_srv x s := MkF (f_main s) (f_next s) (f_count s) (f_worker s) (f_d s) (f_send s) (f_mutex s) (f_mono s) x (f_shard s) (f_closed s) (f_closer s).
  Definition with_shard x s := MkF (f_main s) (f_next s) (f_count s) (f_worker s) (f_d s) (f_send s) (f_mutex s) (f_mono s) (f_srv s) x (f_closed s) (f_closer s).
  Definition with_closed x s := MkF (f_main s) (f_next s) (f_count s) (f_worker s) (f_d s) (f_send s) (f_mutex s) (f_mono s) (f_srv s) (f_shard s) x (f_closer s).
  Definition with_closer x s := MkF (f_main s) (f_next s) (f_count s) (f_worker s) (f_d s) (f_send s) (f_mutex s) (f_mono s) (f_srv s) (f_shard s) (f_closed s) x.

  Definition set_worker k x s := with_workers (setf k x (f_worker s)) s.
  Definition set_d k j x s := with_d (setf k (setf j x (f_d s k)) (f_d s)) s.
  Definition set_send k j x s := with_send (setf k (setf j x (f_send s k)) (f_send s)) s.
  Definition set_srv j x s := with_srv (setf j x (f_srv s)) s.

  (** sync.Cond.Broadcast *)
  Definition fwake (w : fworker) : fworker :=
    match w with
    | WPark w rq did => WLock w rq did
    | WReg w rq did _ => WReg w rq did true
    | x => x
    end.

  (** What worker [k] touches in do (shatter.go:94-111, 138-142): the arrays are those its
      slices have and those it allocates. *)
  Definition do_access (s : fstate) (k rq : nat) (wr : bool) (l : loc) : Prop :=
    (l = LReq rq /\ wr = false) \/ l = LScratch k \/ (l = LField k /\ wr = false) \/ (exists j, l = LBatch k j) \/
    (exists a j, l = LPosts a j /\ (a = rq \/ fst (f_d s k j) = Some a)).

  Inductive fstep : fstate -> list event -> fstate -> Prop :=
  (** indexer.go:237,246-253: any accesses, then the number *)
  | FsAddAcc : forall s d docs wr, f_main s = FAdd (d :: docs) -> fstep s [EAcc GMain wr LAdder] s
  | FsId : forall s d docs, f_main s = FAdd (d :: docs) ->
      fstep s [EAcc GMain true LAdder] (with_next (u32 (f_next s + 1)) (with_main (FReq (f_next s) d docs) s))
  (** indexer.go:242 *)
  | FsNew : forall s did d docs, f_main s = FReq did d docs ->
      fstep s [EAcc GMain true (LReq (f_count s))] (with_count (f_count s + 1) (with_main (FSend (f_count s) did d docs) s))
  | FsGive : forall s rq did d docs k w, f_main s = FSend rq did d docs -> f_worker s k = WIdle w ->
      fstep s [EMeet GMain (GWorker k)] (set_worker k (WGot w rq did d) (with_main (FAdd docs) s))
  (** indexer.go:196-203 *)
  | FsBegin : forall s, f_main s = FAdd [] -> fstep s [] (with_main (FStop nw) s)
  | FsStopNew : forall s k, f_main s = FStop (k + 1) ->
      fstep s [EAcc GMain true (LReq (f_count s))] (with_count (f_count s + 1) (with_main (FStopSend (f_count s) k) s))
  | FsStopGive : forall s rq k k' w, f_main s = FStopSend rq k -> f_worker s k' = WIdle w ->
      fstep s [EMeet GMain (GWorker k')] (set_worker k' (WQuit rq) (with_main (FStop k) s))
  | FsStopDone : forall s, f_main s = FStop 0 -> fstep s [] (with_main (FChan 0) s)
  (** indexer.go:204-206 *)
  | FsChanRead : forall s j, f_main s = FChan j -> (j < n)%nat -> fstep s [EAcc GMain false (LChan j)] (with_main (FClose j) s)
  | FsChanClose : forall s j, f_main s = FClose j ->
      fstep s [EClose GMain j] (with_closed (setf j true (f_closed s)) (with_main (FChan (j + 1)) s))
  | FsChanDone : forall s, f_main s = FChan n -> fstep s [] (with_main FFiles s)
  (** indexer.go:207-215 *)
  | FsFiles : forall s wr, f_main s = FFiles -> fstep s [EAcc GMain wr LAdder] s
  | FsFilesDone : forall s, f_main s = FFiles -> fstep s [] (with_main (FGo 0) s)
  (** indexer.go:217-221 *)
  | FsGo : forall s j, f_main s = FGo j -> (j < n)%nat ->
      fstep s [EGo GMain (GCloser j)] (with_closer (setf j CRun (f_closer s)) (with_main (FGo (j + 1)) s))
  (** indexer.go:223-232: all results have come *)
  | FsEnd : forall s, f_main s = FGo n -> (forall j, (j < n)%nat -> f_closer s j = CDone) -> fstep s [] (with_main FEnd s)
  (** internal/shard/indexer.go:113-158 *)
  | FsCloserAcc : forall s j wr, f_closer s j = CRun -> fstep s [EAcc (GCloser j) wr (LShard j)] s
  | FsCloserDone : forall s j, f_closer s j = CRun -> fstep s [] (with_closer (setf j CDone (f_closer s)) s)
  (** shatter.go:46-53 *)
  | FsGot : forall s k w rq did d, f_worker s k = WGot w rq did d ->
      fstep s [EAcc (GWorker k) false (LReq rq)] (set_worker k (WDo w rq did d) s)
  | FsQuit : forall s k rq, f_worker s k = WQuit rq -> fstep s [EAcc (GWorker k) false (LReq rq)] (set_worker k WStop s)
  (** shatter.go:94-111, 138-142 *)
  | FsDoAcc : forall s k w rq did d wr l, f_worker s k = WDo w rq did d -> do_access s k rq wr l ->
      fstep s [EAcc (GWorker k) wr l] s
  | FsDo : forall s k w rq did d w' bs, f_worker s k = WDo w rq did d -> work w did d = Ok (w', bs) ->
      fstep s [] (set_worker k (WStore w' rq did bs 0) s)
  | FsStore : forall s k w rq did bs j a, f_worker s k = WStore w rq did bs j -> (j < n)%nat -> nth j bs [] <> [] ->
      a = rq \/ fst (f_d s k j) = Some a ->
      fstep s [EAcc (GWorker k) true (LBatch k j)]
        (set_d k j (Some a, snd (f_d s k j) ++ nth j bs []) (set_worker k (WStore w rq did bs (j + 1)) s))
  | FsStoreNone : forall s k w rq did bs j, f_worker s k = WStore w rq did bs j -> (j < n)%nat -> nth j bs [] = [] ->
      fstep s [] (set_worker k (WStore w rq did bs (j + 1)) s)
  | FsStored : forall s k w rq did bs, f_worker s k = WStore w rq did bs n -> fstep s [] (set_worker k (WLock w rq did) s)
  (** shatter.go:116 *)
  | FsLock : forall s k w rq did, f_worker s k = WLock w rq did -> f_mutex s = None ->
      fstep s [ELock (GWorker k)] (with_mutex (Some k) (set_worker k (WChk w rq did) s))
  (** shatter.go:117-119 *)
  | FsChkNo : forall s k w rq did, f_worker s k = WChk w rq did -> f_mono s <> sub32 did 1 ->
      fstep s [EAcc (GWorker k) false LMono] (set_worker k (WReg w rq did false) s)
  | FsPark : forall s k w rq did b, f_worker s k = WReg w rq did b ->
      fstep s [EUnlock (GWorker k)] (with_mutex None (set_worker k (if b : bool then WLock w rq did else WPark w rq did) s))
  | FsChkYes : forall s k w rq did, f_worker s k = WChk w rq did -> f_mono s = sub32 did 1 ->
      fstep s [EAcc (GWorker k) false LMono] (set_worker k (WSpawn w rq did 0) s)
  (** shatter.go:122-124: [ps] is read when its turn comes *)
  | FsRange : forall s k w rq did i, f_worker s k = WSpawn w rq did i -> (i < n)%nat ->
      fstep s [EAcc (GWorker k) false (LBatch k i)] (set_worker k (WGo w rq did i (f_d s k i)) s)
  | FsSpawn : forall s k w rq did i ps, f_worker s k = WGo w rq did i ps ->
      fstep s [EGo (GWorker k) (GSender rq i)] (set_send k i (GStart rq ps) (set_worker k (WSpawn w rq did (i + 1)) s))
  (** shatter.go:132 *)
  | FsWait : forall s k w rq did, f_worker s k = WSpawn w rq did n -> (forall j, (j < n)%nat -> exists r, f_send s k j = GEnd r) ->
      fstep s [EWait (GWorker k) rq] (with_send (setf k (fun _ => GOff) (f_send s)) (set_worker k (WSet w rq did) s))
  (** shatter.go:133-135 *)
  | FsSet : forall s k w rq did, f_worker s k = WSet w rq did ->
      fstep s [EAcc (GWorker k) true LMono] (with_mono did (set_worker k (WBcast w rq did) s))
  | FsBcast : forall s k w rq did, f_worker s k = WBcast w rq did ->
      fstep s [] (with_workers (setf k (WUnl w) (fun k' => fwake (f_worker s k'))) s)
  | FsUnlock : forall s k w, f_worker s k = WUnl w -> fstep s [EUnlock (GWorker k)] (with_mutex None (set_worker k (WIdle w) s))
  (** shatter.go:126-128, the sender *)
  | FsStart : forall s k j rq ps, f_send s k j = GStart rq ps -> fstep s [EAcc (GSender rq j) false (LField k)] (set_send k j (GSend rq ps) s)
  | FsPost : forall s k j rq ps, f_send s k j = GSend rq ps -> f_srv s j = SRecv -> f_closed s j = false ->
      fstep s [EMeet (GSender rq j) (GServer j)] (set_send k j (GAck rq) (set_srv j (SBusy (fst ps) (snd ps)) s))
  (** another sender on the same channel takes the posts for its acknowledgement *)
  | FsSteal : forall s k j rq ps k' rq', f_send s k j = GSend rq ps -> f_send s k' j = GAck rq' -> k <> k' -> f_closed s j = false ->
      fstep s [EMeet (GSender rq j) (GSender rq' j)] (set_send k' j (GReset rq') (set_send k j (GAck rq) s))
  | FsAck : forall s k j rq, f_send s k j = GAck rq -> f_srv s j = SAck -> f_closed s j = false ->
      fstep s [EMeet (GServer j) (GSender rq j)] (set_send k j (GReset rq) (set_srv j SRead s))
  | FsAckClosed : forall s k j rq, f_send s k j = GAck rq -> f_closed s j = true ->
      fstep s [EClosed (GSender rq j) j] (set_send k j (GReset rq) s)
  (** shatter.go:129 *)
  | FsReset : forall s k j rq, f_send s k j = GReset rq ->
      fstep s [EAcc (GSender rq j) true (LBatch k j)] (set_d k j nil_slice (set_send k j (GWg rq) s))
  | FsWg : forall s k j rq, f_send s k j = GWg rq -> fstep s [EDone (GSender rq j) rq] (set_send k j (GEnd rq) s)
  (** internal/shard/indexer.go:160-177 *)
  | FsSrvRead : forall s j, f_srv s j = SRead -> (j < n)%nat -> fstep s [EAcc (GServer j) false (LChan j)] (set_srv j SRecv s)
  | FsSrvClosed : forall s j, f_srv s j = SRecv -> f_closed s j = true -> fstep s [EClosed (GServer j) j] (set_srv j SEnd s)
  | FsSrvEnd : forall s j, f_srv s j = SEnd -> fstep s [EAcc (GServer j) true (LChan j)] (set_srv j SStop s)
  | FsSrvAcc : forall s j a ps wr l, f_srv s j = SBusy a ps -> (exists a', a = Some a' /\ l = LPosts a' j /\ wr = false) \/ l = LShard j ->
      fstep s [EAcc (GServer j) wr l] s
  | FsAbsorb : forall s j a p ps, f_srv s j = SBusy a (p :: ps) ->
      fstep s [EAcc (GServer j) true (LShard j)] (with_shard (setf j (absorb (f_shard s j) p) (f_shard s)) (set_srv j (SBusy a ps) s))
  | FsServed : forall s j a, f_srv s j = SBusy a [] -> fstep s [EAcc (GServer j) false (LChan j)] (set_srv j SAck s).

  Inductive fsteps : fstate -> list event -> fstate -> Prop :=
  | fsteps_refl : forall s, fsteps s [] s
  | fsteps_step : forall s1 tr s2 es s3, fsteps s1 tr s2 -> fstep s2 es s3 -> fsteps s1 (tr ++ es) s3.

  (** Executions in which [m] steps change the state (the others are further accesses). *)
  Inductive fmoves : nat -> fstate -> fstate -> Prop :=
  | fmoves_O : forall s, fmoves 0 s s
  | fmoves_acc : forall m s1 s2 es, fmoves m s1 s2 -> fstep s2 es s2 -> fmoves m s1 s2
  | fmoves_S : forall m s1 s2 es s3, fmoves m s1 s2 -> fstep s2 es s3 -> s3 <> s2 -> fmoves (m + 1) s1 s3.

  (** When all goroutines have been started (indexer.go:84,160). *)
  Definition fstart (docs : list D) (last : N) (ws : list W) (shards : list S) (s0 : S) : fstate :=
    MkF (FAdd docs) (u32 (last + 1)) 0
      (fun k => match nth_error ws k with Some w => WIdle w | None => WStop end)
      (fun _ _ => nil_slice) (fun _ _ => GOff) None last
      (fun j => if (j <? n)%nat then SRead else SStop) (fun j => nth j shards s0) (fun _ => false) (fun _ => COff).

  (** Close has returned, and all other goroutines have. *)
  Definition ffinal (s : fstate) : Prop :=
    f_main s = FEnd /\ (forall k, f_worker s k = WStop) /\ (forall k j, f_send s k j = GOff) /\ (forall j, f_srv s j = SStop) /\
    (forall j, f_closer s j <> CRun).
  (** Sending on a channel that is closed panics (shatter.go:126, internal/shard/indexer.go:175). *)
  Definition fsends_on_closed (s : fstate) : Prop :=
    exists j, f_closed s j = true /\ (f_srv s j = SAck \/ exists k rq ps, f_send s k j = GSend rq ps).
End Fine.
