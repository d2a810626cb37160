(** C93: more documents than there are numbers. *)
From Coq Require Import Lia FinFun.
From Verif Require Import Model.Base Model.Varint Model.Dmd Proof.Tactics Proof.DmdP Proof.WrapP Props.Dmd.
Local Open Scope N_scope.

(** C93 fails: the numbers are uint32. In a session that adds 2^32 documents or more, the
    document after the first [2^32 - 1] has the number 0, under which the record of no document is
    found, and every document after that has the number of an earlier one and leads to it. *)
Theorem C93_numbers_refuted : forall fr ds, (1 <= fr)%Z -> Forall is_uint32_fields ds -> exists file ids,
  dmd_session None fr ds = Ok (Some file, ids) /\
  dmd_lookup file 0 = Ok (MkFields 0 0 0) /\
  forall i d, nth_error ds i = Some d -> exists id, nth_error ids i = Some id /\
    (N.of_nat i = 2 ^ 32 - 1 -> id = 0) /\
    (N.of_nat i < 2 ^ 32 - 1 -> dmd_lookup file id = Ok d) /\
    forall j e, nth_error ds j = Some e -> N.of_nat i = N.of_nat j + 2 ^ 32 -> nth_error ids j = Some id /\ (N.of_nat j < 2 ^ 32 - 1 -> dmd_lookup file id = Ok e).
Proof.
  intros fr ds Hf W. exists (render_dmd (zero_fields :: ds)), (map (fun i => u32 (N.of_nat i)) (seq 1 (length ds))).
  assert (Nt : forall i, (i < length ds)%nat -> nth_error (map (fun i => u32 (N.of_nat i)) (seq 1 (length ds))) i = Some (u32 (N.of_nat (S i)))).
  { intros i L. erewrite map_nth_error; [reflexivity|]. rewrite nth_error_nth' with (d := O) by (rewrite seq_length; exact L). rewrite seq_nth by exact L. reflexivity. }
  assert (W' : Forall wf_fields ds) by (eapply Forall_impl; [|exact W]; intros x H; exact H).
  split; [apply wrap_session, Hf|]. split; [exact (dmd_lookup_render [] zero_fields ds ltac:(repeat split; reflexivity))|].
  change (2 ^ 32) with 4294967296. intros i d E. assert (L : (i < length ds)%nat) by (apply nth_error_Some; congruence).
  assert (Lk : forall j e, nth_error ds j = Some e -> N.of_nat j < 4294967296 - 1 -> dmd_lookup (render_dmd (zero_fields :: ds)) (u32 (N.of_nat (S j))) = Ok e).
  { intros j e Ej Lj. unfold u32. rewrite N.mod_small by lia. apply dmd_lookup_file; assumption. }
  exists (u32 (N.of_nat (S i))). split; [apply Nt, L|]. split; [|split].
  - intros Ei. rewrite Nat2N.inj_succ, Ei. reflexivity.
  - intros Li. apply Lk; assumption.
  - intros j e Ej Eij. assert (X : u32 (N.of_nat (S i)) = u32 (N.of_nat (S j))).
    { unfold u32. rewrite !Nat2N.inj_succ, Eij, <- N.add_succ_l. change 4294967296 with (1 * 4294967296) at 1. rewrite N.mod_add by discriminate. reflexivity. }
    rewrite X. split; [apply Nt; lia|]. intros Lj. apply Lk; assumption.
Qed.
(** Up to 2^32 - 1 documents. *)
Theorem C93_few_partial : forall fr ds, (1 <= fr)%Z -> Forall is_uint32_fields ds -> nlen ds < 2 ^ 32 -> exists file ids,
  dmd_session None fr ds = Ok (Some file, ids) /\ NoDup ids /\ Forall2 (fun id d => dmd_lookup file id = Ok d) ids ds.
Proof.
  intros fr ds Hf W L. exists (render_dmd (zero_fields :: ds)), (map (fun i => u32 (N.of_nat i)) (seq 1 (length ds))).
  split; [apply wrap_session, Hf|]. change (2 ^ 32) with 4294967296 in *. unfold nlen in L.
  assert (Em : map (fun i => u32 (N.of_nat i)) (seq 1 (length ds)) = map N.of_nat (seq 1 (length ds))).
  { apply map_ext_in. intros i Hi. apply in_seq in Hi. unfold u32. apply N.mod_small. lia. }
  rewrite Em. split; [apply FinFun.Injective_map_NoDup; [intros a b; apply Nat2N.inj|apply seq_NoDup]|].
  assert (W' : Forall wf_fields ds) by (eapply Forall_impl; [|exact W]; intros x H; exact H).
  assert (G : forall post pre, ds = pre ++ post -> Forall2 (fun id d => dmd_lookup (render_dmd (zero_fields :: ds)) id = Ok d) (map N.of_nat (seq (S (length pre)) (length post))) post).
  { induction post as [|d post IH]; intros pre E; [constructor|]. cbn [length seq map]. constructor.
    - apply dmd_lookup_file; [exact W'|]. rewrite E, nth_error_app2, Nat.sub_diag by lia. reflexivity.
    - specialize (IH (pre ++ [d])). rewrite app_length in IH. cbn [length] in IH. replace (S (length pre + 1))%nat with (S (S (length pre))) in IH by lia. apply IH. rewrite <- app_assoc. exact E. }
  apply (G ds []). reflexivity.
Qed.
Print Assumptions C93_numbers_refuted.
Print Assumptions C93_few_partial.
Example C93_example : forall M, N.of_nat M = 2 ^ 32 -> exists ds d, Forall is_uint32_fields ds /\ nth_error ds O = Some d /\ nth_error ds M = Some d.
Proof.
  intros M _. exists (repeat (MkFields 1 2 3) (S M)), (MkFields 1 2 3).
  split; [apply Forall_forall; intros x H; apply repeat_spec in H; subst x; repeat split; reflexivity|]. split; [reflexivity|].
  apply nth_error_repeat. lia.
Qed.
