(** C97: goroutines that call Indexer.Add at the same time. *)
From Coq Require Import String.
From Verif Require Import Model.Base Model.Utf8 Model.Token Model.Blotter Model.Post Model.Shatter Model.Shard Model.Dmd Model.Conc Model.Config Model.Run Model.AddRace.
From Verif Require Import Spec.Str.
From Verif Require Import Proof.Tactics Proof.CrashP2 Proof.AddRaceP Proof.StuckP.
Local Open Scope N_scope.
Local Open Scope list_scope.

(** C97 fails: whatever documents have been added, if there is room for one more in the
    buffer, two calls that run at the same time can be given the same number. What the adder
    has then is what it has if only the second had been called: the record of the first
    document is lost. *)
Theorem C97_same_number_refuted : forall grow m d1 d2, mem_ok m ->
  (m_len m < List.length (nth (m_ptr m) (m_heap m) []))%nat -> u32 (N.of_nat (m_len m)) <> m_rate m ->
  exists sched m' id, race grow sched m [PEnter d1; PEnter d2] = (m', [PDone id; PDone id]) /\
    adder_add (adder_of m) d2 = (adder_of m', id).
Proof. exact race_same. Qed.
Print Assumptions C97_same_number_refuted.

(** When the buffer is full, one of two calls can panic. *)
Theorem C97_panics_refuted : forall grow m d1 d2, mem_ok m -> (0 < m_len m)%nat -> u32 (N.of_nat (m_len m)) = m_rate m ->
  exists sched m' c, race grow sched m [PEnter d1; PEnter d2] = (m', [PPanic; c]).
Proof. exact race_panic. Qed.
Print Assumptions C97_panics_refuted.

(** Two documents with the same number, and Close never returns: the worker that has got the
    second one waits for ever for its turn. [last]: the last number before; [ra] and [rb]:
    the documents the two callers add afterwards. In no execution does Close get as far as
    closing the channels, and writing the files after that. *)
Theorem C97_never_closes_refuted : forall u c last next ws shards a b ra rb,
  last + 3 + nlen ra + nlen rb < 4294967296 -> next < 4294967296 ->
  forall st, session_steps u c
    (MkState [MkClient (Some (last + 1, a)) ra; MkClient (Some (last + 1, b)) rb] next MRun (map WIdle ws) None last
       (map (fun s => MkServer VRecv s false) shards)) st ->
  forall j, s_main st <> MChan j.
Proof.
  intros u c last next ws shards a b ra rb L Hn st St.
  assert (Z0 : forall phi, total (@ww blotter req post phi) (map WIdle ws) = 0%nat).
  { intros phi. apply total_zero. apply Forall_forall. intros w Hw. apply in_map_iff in Hw. destruct Hw as (x & <- & _). reflexivity. }
  refine (twice_never _ _ _ (last + 1) 0 1 _ _ _ _ _ _ _ _ _ _ _ _ _ _ _ st St); cbn [s_mono s_next s_mutex s_workers s_clients nth_error].
  all: try reflexivity. all: try assumption. all: try lia. all: try (eexists; reflexivity).
  - unfold pending, coming. cbn [s_clients s_workers]. rewrite Z0. cbn [total cw cl_send one cl_docs]. unfold nlen in L. unfold one. lia.
  - unfold pending. cbn [s_clients s_workers]. rewrite Z0. cbn [total cw cl_send]. unfold wide. destruct (N.ltb_spec (last + 1) 4294967296); lia.
  - intros k w E. rewrite nth_error_map in E. destruct (nth_error ws k); [injection E as <-; exact I|discriminate].
  - unfold closed_down. cbn [s_main s_workers]. apply total_zero. apply Forall_forall. intros w Hw. apply in_map_iff in Hw. destruct Hw as (x & <- & _). reflexivity.
Qed.
Print Assumptions C97_never_closes_refuted.

(** What holds. Calls that do not overlap, in any order: every call gives the number, and
    leaves the adder, that [adder_add] says, which C05 to C07 are about. *)
Theorem C97_in_turn_partial : forall grow doc order m cs K, mem_ok m -> NoDup order ->
  (forall i, In i order -> nth_error cs i = Some (PEnter (doc i))) -> (m_len m + List.length order + 9 <= K)%nat ->
  exists m' cs' ids, race grow (concat (map (fun i => repeat i K) order)) m cs = (m', cs') /\ mem_ok m' /\
    adder_adds (adder_of m) (map doc order) = (adder_of m', ids) /\
    Forall2 (fun i id => nth_error cs' i = Some (PDone id)) order ids.
Proof.
  intros grow doc order m cs K O Nd Hp HK. destruct (in_turn grow doc order m cs K O Nd Hp HK) as (m' & cs' & ids & A & B & C & D & _). exists m', cs', ids. auto.
Qed.
Print Assumptions C97_in_turn_partial.

(** However many calls run and however they are interleaved, the records that are in the
    file stay what they are. *)
Theorem C97_earlier_partial : forall grow sched m cs old, m_file m = Some old ->
  forall did v, dmd_lookup old did = Ok v ->
  exists f, m_file (fst (race grow sched m cs)) = Some f /\ dmd_lookup f did = Ok v.
Proof.
  intros grow sched m cs old E did v H. destruct (race_longer grow old sched m cs) as [e Ee]; [rewrite E; apply longer_refl|].
  exists (old ++ e). split; [exact Ee|]. apply lookup_longer, H.
Qed.
Print Assumptions C97_earlier_partial.

(** A new adder with DocFlushRate 512, to which two documents are added at a time; and one
    that is full. *)
Example C97_example : forall grow d1 d2 e,
  let new := MkMem [repeat zero_fields 512] 0 1 0 512 None in
  let full := MkMem [repeat e 2] 0 2 0 2 None in
  new_adder None 512 = Ok (fst (adder_of new)) /\ mem_ok new /\
  (exists sched m', race grow sched new [PEnter d1; PEnter d2] = (m', [PDone 1; PDone 1]) /\
     a_buf (fst (adder_of m')) = [zero_fields; d2]) /\
  mem_ok full /\ exists sched m' c, race grow sched full [PEnter d1; PEnter d2] = (m', [PPanic; c]).
Proof.
  intros grow d1 d2 e new full.
  assert (On : mem_ok new) by (split; cbn [new m_ptr m_len m_heap nth List.length]; rewrite ?repeat_length; lia).
  assert (Of : mem_ok full) by (split; cbn [full m_ptr m_len m_heap nth List.length]; rewrite ?repeat_length; lia).
  split; [reflexivity|]. split; [exact On|]. split; [|split; [exact Of|]].
  - destruct (C97_same_number_refuted grow new d1 d2 On) as (sched & m' & id & E & A); [cbn [new m_ptr m_len m_heap nth]; rewrite repeat_length; lia|discriminate|].
    assert (X : snd (adder_add (adder_of new) d2) = 1 /\ a_buf (fst (fst (adder_add (adder_of new) d2))) = [zero_fields; d2]) by (split; reflexivity).
    rewrite A in X. destruct X as [X Y]. cbn [snd fst] in X, Y. subst id. exists sched, m'. auto.
  - apply C97_panics_refuted; [exact Of|cbn; lia|reflexivity].
Qed.
