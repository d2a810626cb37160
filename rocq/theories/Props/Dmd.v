(** C05-C07: document ids and metadata. A history is a list of sessions, each with its
    flush rate and the metadata of the documents added in it. *)
From Verif Require Import Model.Base Model.Varint Model.Dmd Proof.Tactics Proof.VarintP Proof.DmdP.
Local Open Scope N_scope.

(** The three fields are uint32 in the code. *)
Definition is_uint32_fields (d : fields) : Prop :=
  f_fid d < 2 ^ 32 /\ f_start d < 2 ^ 32 /\ f_end d < 2 ^ 32.

Definition good_history (h : list (Z * list fields)) : Prop :=
  h <> [] /\ Forall (fun s => (1 <= fst s)%Z) h /\
  N.of_nat (length (concat (map snd h))) < 2 ^ 32 - 1 /\
  Forall is_uint32_fields (concat (map snd h)).

(** C05: the k-th document ever added gets id k (counting from 1), and its metadata is
    found under that id after the last Close. *)
Theorem C05_docids_consecutive : forall h, good_history h ->
  let docs := concat (map snd h) in
  exists file,
    dmd_sessions None h = Ok (Some file, map N.of_nat (seq 1 (length docs))) /\
    forall k d, nth_error docs k = Some d -> dmd_lookup file (N.of_nat (k + 1)) = Ok d.
Proof. exact docids_consecutive. Qed.
Print Assumptions C05_docids_consecutive.

(** C06 *)
Theorem C06_lookup_beyond_is_error : forall h file ids, good_history h ->
  dmd_sessions None h = Ok (Some file, ids) ->
  forall did, N.of_nat (length (concat (map snd h))) < did -> dmd_lookup file did = Err EOF.
Proof. exact lookup_beyond. Qed.
Print Assumptions C06_lookup_beyond_is_error.

(** C07 is false: the record reserved for document id 0 is counted, for every history. *)
Theorem C07_num_docs_refuted : forall h file ids, good_history h ->
  dmd_sessions None h = Ok (Some file, ids) ->
  dmd_num_docs file <> N.of_nat (length (concat (map snd h))).
Proof. exact num_docs_wrong. Qed.
(** What holds instead. *)
Theorem C07_num_docs_partial : forall h file ids, good_history h ->
  dmd_sessions None h = Ok (Some file, ids) ->
  dmd_num_docs file = N.of_nat (length (concat (map snd h))) + 1.
Proof. exact num_docs_plus_one. Qed.
Print Assumptions C07_num_docs_refuted.
Print Assumptions C07_num_docs_partial.

(** Two sessions, a flush in the middle of the first. *)
Definition example_history : list (Z * list fields) :=
  [(2%Z, [MkFields 1 0 10; MkFields 2 0 20; MkFields 1 3 5]); (1%Z, [MkFields 4 0 4294967295])].
Example C05_example : good_history example_history /\
  match dmd_sessions None example_history with
  | Ok (Some f, ids) => ids = [1; 2; 3; 4] /\ dmd_lookup f 3 = Ok (MkFields 1 3 5) /\
                        dmd_lookup f 4 = Ok (MkFields 4 0 4294967295) /\
                        dmd_lookup f 5 = Err EOF /\ dmd_num_docs f = 5
  | _ => False
  end.
Proof.
  split.
  - unfold good_history, example_history, is_uint32_fields. split; [discriminate|].
    repeat split; simpl; repeat constructor; simpl; lia.
  - vm_compute. repeat split.
Qed.
