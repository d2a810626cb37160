(** C120: documents added by several goroutines at a time, with paths and records together. The
    path set [s] is that after the calls [adds], one after the other (C118). *)
From Coq Require Import String Lia.
From Verif Require Import Model.Base Model.Dmd Model.Path Model.Fnames Model.AddRace Model.PathRace Model.DocRace Spec.Paths Spec.Str.
From Verif Require Import Proof.Tactics Proof.PathP Proof.FnamesP Proof.CrashP2 Proof.AddRaceP Proof.PathRaceP Proof.DocRaceP Proof.DocTurnP Props.PathRace.
Local Open Scope list_scope. Local Open Scope N_scope.

(** Calls that do not overlap, [turns n K] being K steps for each of n goroutines: document number
    i of the calls gets a record with its start and its end and the number of its own path, and the
    records and their numbers are those the sequential Adder gives. *)
Theorem C120_in_turn_partial growp growr docs m K : ops_ok (doc_ops docs) -> room (doc_ops docs) < 4294967295 -> mem_ok m ->
  (forall d, In d docs -> (8 * List.length (spec_abs (ta_cwd d) (ta_path d)) + 9 + m_len m + List.length docs + 10 <= K)%nat) ->
  exists s' m' ids dids, doc_race growp growr (turns (List.length docs) K) new_pset m (map begin_doc docs) = (s', m', map (fun x => DRec (fst x) (PDone (snd x))) (combine ids dids)) /\
    List.length ids = List.length docs /\ List.length dids = List.length docs /\
    adder_adds (adder_of m) (map (fun x => MkFields (fst x) (ta_start (snd x)) (ta_end (snd x))) (combine ids docs)) = (adder_of m', dids) /\
    Forall2 (fun id d => fn_abs (paths_of s') id = Ok (show_abs (spec_abs (ta_cwd d) (ta_path d)))) ids docs.
Proof.
  intros R Hr Om HK. assert (N1 : nlen new_fnames = 1) by reflexivity.
  destruct (fn_run_spec (doc_ops docs) new_fnames R new_wf) as (d & ids & E & W & _ & _ & F); [lia|].
  assert (Ed : added (doc_ops docs) = map (fun x => (ta_cwd x, ta_path x)) docs).
  { clear. induction docs as [|x docs IH]; [reflexivity|]. change ((ta_cwd x, ta_path x) :: added (doc_ops docs) = (ta_cwd x, ta_path x) :: map (fun x => (ta_cwd x, ta_path x)) docs). f_equal. exact IH. }
  rewrite Ed in F.
  set (K1 := (K - m_len m - List.length docs - 10)%nat).
  assert (T : docs = [] \/ (K1 + m_len m + List.length docs + 10 <= K)%nat).
  { destruct docs as [|x docs]; [left; reflexivity|right]. specialize (HK x (or_introl eq_refl)). unfold K1. lia. }
  destruct T as [->|T].
  { cbn [map] in F. inversion F; subst. exists new_pset, m, [], []. repeat (split; [reflexivity|]). constructor. }
  destruct (docs_in_turn growp growr K1 K docs [] new_pset m d ids new_pset_ok Om) as (s' & m' & dids & Er & Os & Om' & Ps & L & A); [|exact T|exact E|].
  { intros x Hx. specialize (HK x Hx). assert (Rc : rooted (ta_cwd x)) by (apply (R _ (ta_path x)); unfold doc_ops; apply in_map_iff; exists x; auto).
    rewrite path_abs_spec, path_parts_show by (exact Rc || apply spec_abs_ok). unfold K1. destruct (spec_abs (ta_cwd x) (ta_path x)) as [|z zs]; cbn [parts_of List.length] in *; lia. }
  exists s', m', ids, dids.
  assert (Q : recs ids (at_pos docs) = map (fun x => MkFields (fst x) (ta_start (snd x)) (ta_end (snd x))) (combine ids docs)).
  { clear. unfold recs, at_pos. revert docs. induction ids as [|i ids IH]; intros [|x docs]; try reflexivity. cbn [map combine fst snd]. f_equal. apply IH. }
  rewrite Q in A. split; [|split; [exact L|split; [|split; [exact A|]]]].
  - unfold turns. cbn [app List.length] in Er. rewrite Er. f_equal. unfold with_num. clear. revert dids. induction ids as [|i ids IH]; intros [|x dids]; try reflexivity. cbn [map combine fst snd]. f_equal. apply IH.
  - apply (f_equal snd) in A. cbn [snd] in A. rewrite <- A, adder_adds_length, map_length, combine_length. lia.
  - subst d. clear -F W. revert F. generalize docs. induction ids as [|i ids IH]; intros [|x ds] F; cbn [map] in F; inversion F; subst; constructor; [|apply IH; assumption].
    cbn [fst snd] in *. rewrite (fn_abs_path _ _ _ W H2), parts_show. reflexivity.
Qed.
Print Assumptions C120_in_turn_partial.

(** Refuted: of two documents, new files in directories that are there, that are added at a time,
    both can get the path of the second, also when the calls get numbers of their own and the
    records are made one after the other. *)
Theorem C120_other_file_refuted growp growr adds K : ops_ok (as_ops adds) -> room (as_ops adds) < 4294967290 ->
  (forall a, In a adds -> (8 * List.length (spec_abs (fst a) (snd a)) + 9 <= K)%nat) ->
  exists s ids, path_race growp (turns (List.length adds) K) new_pset (start adds) = (s, map QDone ids) /\
    forall i ci x j cj y, is_path (paths_of s) i ci -> is_path (paths_of s) j cj ->
      (forall id, ~ is_path (paths_of s) id (ci ++ [x])) -> (forall id, ~ is_path (paths_of s) id (cj ++ [y])) -> nlen y < 4294967296 ->
      forall cwd p q st1 en1 st2 en2 m, path_parts (path_abs cwd p) = ci ++ [x] -> path_parts (path_abs cwd q) = cj ++ [y] -> mem_ok m ->
      exists sched s' m' n did1 did2,
        doc_race growp growr sched s m [begin_doc (MkToAdd cwd p st1 en1); begin_doc (MkToAdd cwd q st2 en2)] = (s', m', [DRec n (PDone did1); DRec n (PDone did2)]) /\
        adder_adds (adder_of m) [MkFields n st1 en1; MkFields n st2 en2] = (adder_of m', [did1; did2]) /\
        fn_abs (paths_of s') n = Ok (47 :: join_sep (cj ++ [y])).
Proof.
  intros R Hr HK. destruct (C118_other_path_refuted growp adds K R Hr HK) as (s & ids & E & H). exists s, ids. split; [exact E|].
  intros i ci x j cj y Pi Pj Nx Ny Hy cwd p q st1 en1 st2 en2 m Ep Eq O.
  destruct (H i ci x j cj y Pi Pj Nx Ny Hy cwd p q Ep Eq) as (sched & s' & n & Er & Ea).
  destruct (both_parts growp growr sched s s' m (start [(cwd, p); (cwd, q)]) [n; n] [(st1, en1); (st2, en2)] eq_refl O Er) as (sched' & m' & dids & D & A & _).
  unfold recs in A. cbn [combine map fst snd] in A. cbn [adder_adds] in A.
  destruct (adder_add (adder_of m) (MkFields n st1 en1)) as [a1 did1] eqn:A1. destruct (adder_add a1 (MkFields n st2 en2)) as [a2 did2] eqn:A2.
  assert (dids = [did1; did2]) as -> by congruence. exists sched', s', m', n, did1, did2. split; [exact D|]. split; [|exact Ea].
  cbn [adder_adds]. rewrite A1, A2. exact A.
Qed.
Print Assumptions C120_other_file_refuted.

(** In every interleaving, what is in the dmd file before keeps its record and its path. *)
Theorem C120_earlier_partial growp growr adds K : ops_ok (as_ops adds) -> room (as_ops adds) < 4294967295 ->
  (forall a, In a adds -> (8 * List.length (spec_abs (fst a) (snd a)) + 9 <= K)%nat) ->
  exists s ids, path_race growp (turns (List.length adds) K) new_pset (start adds) = (s, map QDone ids) /\
    forall m old did v j a, m_file m = Some old -> dmd_lookup old did = Ok v -> nth_error ids j = Some (f_fid v) -> nth_error adds j = Some a ->
    forall docs sched, let '(s', m', _) := doc_race growp growr sched s m (map begin_doc docs) in
      exists f, m_file m' = Some f /\ dmd_lookup f did = Ok v /\ fn_abs (paths_of s') (f_fid v) = Ok (show_abs (spec_abs (fst a) (snd a))).
Proof.
  intros R Hr HK. destruct (C118_earlier_partial growp adds K R Hr HK) as (s & ids & E & H). exists s, ids. split; [exact E|].
  intros m old did v j a Ef Ed Ei Ej docs sched. pose proof (path_projection growp growr sched s m (map begin_doc docs)) as P.
  pose proof (docs_longer growp growr old sched s m (map begin_doc docs)) as L.
  destruct (doc_race growp growr sched s m (map begin_doc docs)) as [[s' m'] ts']. cbn [fst snd] in L.
  destruct L as [e Ee]; [rewrite Ef; apply longer_refl|]. exists (old ++ e). split; [exact Ee|]. split; [apply lookup_longer, Ed|].
  assert (Es : map path_part (map begin_doc docs) = start (map (fun d => (ta_cwd d, ta_path d)) docs)) by (unfold start; rewrite !map_map; reflexivity).
  rewrite Es in P. specialize (H (map (fun d => (ta_cwd d, ta_path d)) docs) sched). rewrite P in H. cbn [fst] in H.
  exact (forall2_at _ _ _ H j _ _ Ei Ej).
Qed.
Print Assumptions C120_earlier_partial.

(** In every interleaving, documents of files that are there already go to Adder.Add with the
    number of their path. *)
Theorem C120_known_partial growp growr adds K : ops_ok (as_ops adds) -> room (as_ops adds) < 4294967295 ->
  (forall a, In a adds -> (8 * List.length (spec_abs (fst a) (snd a)) + 9 <= K)%nat) ->
  exists s ids, path_race growp (turns (List.length adds) K) new_pset (start adds) = (s, map QDone ids) /\
    forall docs sched m, (forall d, In d docs -> rooted (ta_cwd d) /\ exists b, In b adds /\ spec_abs (ta_cwd d) (ta_path d) = spec_abs (fst b) (snd b)) ->
      let '(s', _, ts) := doc_race growp growr sched s m (map begin_doc docs) in
      s' = s /\ forall i d j b id, nth_error docs i = Some d -> nth_error adds j = Some b -> nth_error ids j = Some id -> spec_abs (ta_cwd d) (ta_path d) = spec_abs (fst b) (snd b) ->
        forall n c, nth_error ts i = Some (DRec n c) -> n = id.
Proof.
  intros R Hr HK. destruct (C118_known_partial growp adds K R Hr HK) as (s & ids & E & H). exists s, ids. split; [exact E|].
  intros docs sched m Hd. pose proof (path_projection growp growr sched s m (map begin_doc docs)) as P.
  destruct (doc_race growp growr sched s m (map begin_doc docs)) as [[s' m'] ts].
  assert (Es : map path_part (map begin_doc docs) = start (map (fun d => (ta_cwd d, ta_path d)) docs)) by (unfold start; rewrite !map_map; reflexivity).
  rewrite Es in P. destruct (H (map (fun d => (ta_cwd d, ta_path d)) docs) sched) as (cs & Er & Hc).
  { intros a Ha. apply in_map_iff in Ha. destruct Ha as (d & <- & Hi). exact (Hd d Hi). }
  rewrite P in Er. assert (s' = s) as -> by congruence. assert (cs = map path_part ts) as -> by congruence. split; [reflexivity|].
  intros i d j b id Ed Ej Ei Es2 n c Et.
  destruct (Hc i (ta_cwd d, ta_path d) j b id) as (c' & E' & _ & Hid & _); try assumption; [rewrite nth_error_map, Ed; reflexivity|].
  rewrite nth_error_map, Et in E'. cbn [option_map path_part] in E'. assert (c' = QDone n) as -> by congruence. exact (Hid n eq_refl).
Qed.
Print Assumptions C120_known_partial.

(** With /a/1 and /b/1 there, documents from /a/2 and /b/2: numbers 1 and 2, both with path 5, /b/2. *)
Example C120_example growp growr : exists s s' m',
  path_race growp (turns 2 25) new_pset (start there) = (s, [QDone 2; QDone 4]) /\
  doc_race growp growr (repeat 0%nat 5 ++ repeat 1%nat 10 ++ repeat 0%nat 20 ++ repeat 1%nat 20) s (MkMem [repeat zero_fields 512] 0 1 0 512 None)
    [begin_doc (MkToAdd (bs "/") (bs "a/2") 0 7); begin_doc (MkToAdd (bs "/") (bs "b/2") 0 9)] = (s', m', [DRec 5 (PDone 1); DRec 5 (PDone 2)]) /\
  fn_abs (paths_of s') 5 = Ok (bs "/b/2") /\ a_buf (fst (adder_of m')) = [zero_fields; MkFields 5 0 7; MkFields 5 0 9].
Proof. eexists. eexists. eexists. split; [vm_compute; reflexivity|]. split; [vm_compute; reflexivity|]. split; vm_compute; reflexivity. Qed.
(** The hypotheses of [C120_in_turn_partial], and what it is about: three documents of two files,
    with the buffer full in between. *)
Definition in_order : list to_add := [MkToAdd (bs "/") (bs "a/2") 0 7; MkToAdd (bs "/a") (bs "2") 7 9; MkToAdd (bs "/") (bs "b") 0 4].
Definition small_mem : mem := MkMem [repeat zero_fields 2] 0 1 0 2 None.
Example C120_in_turn_met : ops_ok (doc_ops in_order) /\ room (doc_ops in_order) < 4294967295 /\ mem_ok small_mem /\
  (forall d, In d in_order -> (8 * List.length (spec_abs (ta_cwd d) (ta_path d)) + 9 + m_len small_mem + List.length in_order + 10 <= 39)%nat).
Proof.
  split. { intros c p [H|[H|[H|[]]]]; injection H as <- _; [exists []|exists (bs "a")|exists []]; reflexivity. }
  split; [reflexivity|]. split; [split; vm_compute; repeat constructor|]. intros d [<-|[<-|[<-|[]]]]; vm_compute; repeat constructor.
Qed.
Example C120_in_turn_example growp growr : exists s' m',
  doc_race growp growr (turns 3 39) new_pset small_mem (map begin_doc in_order) = (s', m', [DRec 2 (PDone 1); DRec 2 (PDone 2); DRec 3 (PDone 3)]) /\
  m_file m' = Some (List.concat (map enc_fields [zero_fields; MkFields 2 0 7])) /\ a_buf (fst (adder_of m')) = [MkFields 2 7 9; MkFields 3 0 4] /\
  fn_abs (paths_of s') 2 = Ok (bs "/a/2") /\ fn_abs (paths_of s') 3 = Ok (bs "/b").
Proof. eexists. eexists. split; [vm_compute; reflexivity|]. repeat split; vm_compute; reflexivity. Qed.
