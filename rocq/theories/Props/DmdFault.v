(** C65: a failing write of document records. A history [h] of sessions without failures is
    followed by one during which any of the calls that write records may fail. *)
From Verif Require Import Model.Base Model.Varint Model.Dmd Model.DmdFault Spec.Attempts
  Proof.Tactics Proof.VarintP Proof.DmdP Proof.DmdFaultP Props.Dmd.
Local Open Scope N_scope.

(** The sessions before (there may be none), and the documents [ds] of this one. *)
Definition good_start (h : list (Z * list fields)) (ds : list fields) : Prop :=
  Forall (fun s => (1 <= fst s)%Z) h /\
  N.of_nat (length (concat (map snd h) ++ ds)) < 2 ^ 32 - 1 /\
  Forall is_uint32_fields (concat (map snd h) ++ ds).

(** A new index with any flush rate above 1, here the number of the documents [ds1] plus 1.
    The document [x] makes Add write the buffered records; the first write succeeds, the
    second one fails without writing anything, and all later ones succeed. Then Add of [x]
    returns an error, all others return numbers, Close reports success, but every number
    leads to the record of the document before (the first to the reserved one). *)
Theorem C65_shifted_refuted : forall ds1 x ds2,
  ds1 <> [] -> good_start [] (ds1 ++ x :: ds2) ->
  exists file ids,
    dmd_session_o None (Z.of_nat (length ds1 + 1)) (ds1 ++ x :: ds2) [FailWrite 1 0] = Ok (Some file, ids, true) /\
    accepted (ds1 ++ x :: ds2) ids = ds1 ++ ds2 /\
    numbers ids = map N.of_nat (seq 1 (length (ds1 ++ ds2))) /\
    forall k d, nth_error (zero_fields :: ds1 ++ ds2) k = Some d -> dmd_lookup file (N.of_nat (k + 1)) = Ok d.
Proof. intros ds1 x ds2 Hne (_ & Hl & Hw). exact (fault_shifted ds1 x ds2 Hne Hl Hw). Qed.
Print Assumptions C65_shifted_refuted.

(** When the failing write has put a part of a record in the file, the documents of later
    sessions, in which nothing fails, are wrong as well. *)
Definition torn_docs : list fields := [MkFields 1 0 10; MkFields 2 0 20; MkFields 3 0 30].
Theorem C65_torn_refuted : good_start [] torn_docs /\
  exists f1 f2, dmd_session_o None 2 torn_docs [FailWrite 0 5] = Ok (Some f1, [Some 1; None; Some 2], true) /\
    dmd_lookup f1 1 <> Ok (MkFields 1 0 10) /\ dmd_lookup f1 2 <> Ok (MkFields 3 0 30) /\
    dmd_session (Some f1) 2 [MkFields 4 0 40; MkFields 5 0 50] = Ok (Some f2, [3; 4]) /\
    dmd_lookup f2 3 <> Ok (MkFields 4 0 40) /\ dmd_lookup f2 4 <> Ok (MkFields 5 0 50).
Proof.
  split.
  - unfold good_start, torn_docs, is_uint32_fields. cbn. repeat split; repeat constructor; cbn; lia.
  - eexists _, _. split; [vm_compute; reflexivity|]. split; [vm_compute; discriminate|].
    split; [vm_compute; discriminate|]. split; [vm_compute; reflexivity|].
    split; vm_compute; discriminate.
Qed.
Print Assumptions C65_torn_refuted.

(** What holds: as long as no failing call has written anything, the documents for which Add
    returned a number have consecutive numbers, and if Close reports success they, and those
    of the earlier sessions, are found under them. Missing: failing calls that have
    written. *)
Theorem C65_nothing_written_partial : forall h fr ds os prev ids0,
  good_start h ds -> (1 <= fr < 2 ^ 32)%Z -> dmd_sessions None h = Ok (prev, ids0) ->
  Forall (fun o => forall n k, o = FailWrite n k -> n = 0%nat /\ k = 0%nat) os ->
  exists file ids ok,
    dmd_session_o prev fr ds os = Ok (file, ids, ok) /\
    length ids = length ds /\
    numbers ids = map N.of_nat (seq (length (concat (map snd h)) + 1) (length (accepted ds ids))) /\
    (ok = true -> exists f, file = Some f /\
       forall k d, nth_error (concat (map snd h) ++ accepted ds ids) k = Some d ->
         dmd_lookup f (N.of_nat (k + 1)) = Ok d).
Proof.
  intros h fr ds os prev ids0 Hh Hfr H Hc. apply (fault_clean h fr ds os prev ids0 Hh Hfr H).
  eapply Forall_impl; [|exact Hc]. intros [| | |n k] Ho; cbn; auto.
  destruct (Ho n k eq_refl) as [-> ->]. exact I.
Qed.
Print Assumptions C65_nothing_written_partial.

(** Whatever fails, and whether Close reports it or not, the documents of the earlier
    sessions are found as before. *)
Theorem C65_earlier_partial : forall h fr ds os prev ids0,
  good_start h ds -> (1 <= fr < 2 ^ 32)%Z -> dmd_sessions None h = Ok (prev, ids0) -> h <> [] ->
  exists file ids ok, dmd_session_o prev fr ds os = Ok (Some file, ids, ok) /\
    forall k d, nth_error (concat (map snd h)) k = Some d -> dmd_lookup file (N.of_nat (k + 1)) = Ok d.
Proof. exact fault_earlier. Qed.
Print Assumptions C65_earlier_partial.

(** What is in the file, whatever fails: the records in batches, before each of them what
    the failed attempts to write it have left, and at the end what the attempts to write
    the records still pending have left. Nothing is pending if Close reports success. An
    attempt that fails at record n after k bytes of it leaves 12n + k bytes. *)
Theorem C65_file_partial : forall h fr ds os prev ids0,
  good_start h ds -> (1 <= fr < 2 ^ 32)%Z -> dmd_sessions None h = Ok (prev, ids0) ->
  exists file ids ok bs pending tries,
    dmd_session_o prev fr ds os = Ok (file, ids, ok) /\
    length ids = length ds /\
    numbers ids = map N.of_nat (seq (length (concat (map snd h)) + 1) (length (accepted ds ids))) /\
    (match h with [] => [zero_fields] | _ => [] end) ++ accepted ds ids = concat (map fst bs) ++ pending /\
    match file with None => [] | Some f => f end =
      match prev with None => [] | Some f => f end ++ concat (map batch_bytes bs) ++ leftovers pending tries /\
    Forall (fun t => exists o, In o os /\
              match o with
              | FlushDone => False
              | FailOpen | FailSeek => t = 0%nat
              | FailWrite n k => t = (12 * n + Nat.min k 12)%nat
              end) (concat (map snd bs) ++ tries) /\
    (ok = true -> pending = [] /\ tries = []).
Proof. exact fault_batches. Qed.
Print Assumptions C65_file_partial.

Example C65_example :
  good_start [] [MkFields 1 0 10; MkFields 2 0 20; MkFields 3 0 30] /\
  (* the second write fails *)
  match dmd_session_o None 2 [MkFields 1 0 10; MkFields 2 0 20; MkFields 3 0 30] [FailWrite 1 0] with
  | Ok (Some f, ids, ok) => ids = [Some 1; None; Some 2] /\ ok = true /\
      dmd_lookup f 1 = Ok zero_fields /\ dmd_lookup f 2 = Ok (MkFields 1 0 10)
  | _ => False
  end /\
  (* the file cannot be opened twice *)
  match dmd_session_o None 2 [MkFields 1 0 10; MkFields 2 0 20; MkFields 3 0 30; MkFields 4 0 40] [FailOpen; FailOpen] with
  | Ok (Some f, ids, ok) => ids = [Some 1; None; None; Some 2] /\ ok = true /\
      dmd_lookup f 1 = Ok (MkFields 1 0 10) /\ dmd_lookup f 2 = Ok (MkFields 4 0 40)
  | _ => False
  end.
Proof.
  split.
  - unfold good_start, is_uint32_fields. cbn. repeat split; repeat constructor; cbn; lia.
  - vm_compute. repeat split.
Qed.
