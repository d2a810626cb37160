(** C94: what blotters and filters say of themselves. *)
From Coq Require Import String Lia ZArith.
From Verif Require Import Model.Base Model.Utf8 Model.Blotter Model.Config Model.Bloom Model.ConfigOf Spec.Configs Proof.Tactics.
Local Open Scope N_scope.
Local Open Scope list_scope.
Notation length := List.length (only parsing).

(** Any number of words given to a blotter. *)
Inductive blotted (u : unicode) : blotter -> blotter -> Prop :=
  | blotted_none b : blotted u b b
  | blotted_word b w b1 h b2 : blotter_blot u b w = Ok (b1, h) -> blotted u b1 b2 -> blotted u b b2.

Lemma upd_len {A} i (x : A) l : length (upd i x l) = length l.
Proof. revert i. induction l as [|y l IH]; intros [|i]; cbn [upd length]; auto. Qed.
Lemma circ_keeps u c w c' h : circ_blot u c w = Ok (c', h) -> circ_config c' = circ_config c.
Proof.
  unfold circ_blot, circ_config, zlen. destruct (nth_error (c_hashes c) (c_i c)); [|discriminate]. intros [= <- <-]. cbn [c_hashes]. rewrite upd_len. reflexivity.
Qed.
(** All circles of an interleaved blotter are alike. *)
Definition alike (b : blotter) (c : blot_config) : Prop :=
  match b with
  | BCirc x => bc_interleave c = 1%Z /\ circ_config x = c
  | BInter v => bc_interleave c = zlen (v_circs v) /\ (1 < bc_interleave c)%Z /\ Forall (fun x => zlen (c_hashes x) = bc_seqlen c) (v_circs v)
  end.
Lemma alike_keeps u b w b' h c : alike b c -> blotter_blot u b w = Ok (b', h) -> alike b' c.
Proof.
  destruct b as [x|v]; cbn [alike blotter_blot]; intros A H.
  - destruct (circ_blot u x w) as [[x' r]| | |] eqn:E; try discriminate. injection H as <- <-. cbn [alike]. rewrite (circ_keeps u _ _ _ _ E). exact A.
  - unfold interleaved_blot in H. destruct (nth_error (v_circs v) (v_i v)) as [x|] eqn:Ex; [|discriminate].
    destruct (circ_blot u x w) as [[x' r]| | |] eqn:E; try discriminate. injection H as <- <-. cbn [alike v_circs].
    destruct A as (A & B & C). unfold zlen in *. rewrite upd_len. split; [exact A|]. split; [exact B|].
    apply circ_keeps in E. injection E as E. unfold zlen in E.
    pose proof (Forall_forall (fun x => Z.of_nat (length (c_hashes x)) = bc_seqlen c) (v_circs v)) as [F _]. specialize (F C).
    assert (Hx : Z.of_nat (length (c_hashes x')) = bc_seqlen c) by (rewrite E; apply F; eapply nth_error_In, Ex).
    clear -C Hx. revert C. generalize (v_i v). induction (v_circs v) as [|y l IH]; intros [|i] C; cbn [upd]; inversion C; subst; constructor; auto.
Qed.
(** A blotter, however many words it has seen, has the configuration it was made from. *)
Theorem C94_blotter : forall u c b b', blotter_from_config c = Ok b -> blotted u b b' -> blotter_config b' = Ok c /\ interleaving b' = bc_interleave c.
Proof.
  intros u [sl il] b b' E S. assert (A : alike b (MkBlotConfig sl il)).
  { unfold blotter_from_config in E. cbn [bc_seqlen bc_interleave] in E. destruct (Z.ltb_spec il 1) as [|L]; [discriminate|].
    unfold new_interleaved, new_circ in E. destruct (Z.eqb_spec il 1) as [->|Ne]; (destruct (Z.ltb_spec sl 0) as [|Ls]; [discriminate|]); cbn [bind] in E; injection E as <-; cbn [alike bc_interleave bc_seqlen].
    - split; [reflexivity|]. unfold circ_config, zlen. cbn [c_hashes]. rewrite repeat_length. f_equal. lia.
    - cbn [v_circs]. unfold zlen. rewrite repeat_length. split; [lia|]. split; [lia|]. apply Forall_forall. intros x Hx. apply repeat_spec in Hx. subst x. cbn [c_hashes]. rewrite repeat_length. lia. }
  clear E. induction S as [b|b w b1 h b2 H S IH]; [|apply IH; eapply alike_keeps; eauto].
  destruct b as [x|v]; cbn [alike blotter_config interleaving bc_interleave] in *.
  - destruct A as [-> A]. split; [congruence|reflexivity].
  - destruct A as (A & B & C). split; [|congruence]. unfold inter_config. destruct (v_circs v) as [|x l] eqn:Ev; [unfold zlen in A; cbn [length] in A; lia|].
    inversion C as [|? ? X _]; subst. cbn [bc_seqlen] in X. rewrite X. reflexivity.
Qed.
(** A filter is made again from its configuration exactly if its size in bits is an int64. *)
Theorem C94_filter_partial : forall b, int64 (fl_mbytes b) ->
  (filter_from_config (filter_config b) = Ok b <-> int64 (fl_mbytes b * 8)).
Proof.
  intros [k mb] I. unfold filter_from_config, filter_config, int64 in *. cbn [fc_name fc_m fc_k fl_mbytes fl_k] in *.
  assert (X : eq_bytes (Spec.Str.bs "fnv32"%string) (Spec.Str.bs "fnv32"%string) = true) by reflexivity. rewrite X. unfold wrap64. split.
  - intros [= H]. pose proof (Z.mod_pos_bound (mb * 8 + 9223372036854775808) 18446744073709551616 ltac:(lia)) as B.
    revert B H. generalize ((mb * 8 + 9223372036854775808) mod 18446744073709551616)%Z. intros x B H.
    pose proof (Z.quot_rem (x - 9223372036854775808) 8 ltac:(lia)) as Q. rewrite H in Q.
    destruct (Z.le_gt_cases 0 (x - 9223372036854775808)) as [P|P].
    + pose proof (Z.rem_bound_pos (x - 9223372036854775808) 8 ltac:(lia) ltac:(lia)). lia.
    + pose proof (Z.rem_bound_pos_neg (x - 9223372036854775808) 8 ltac:(lia) ltac:(lia)). lia.
  - intros J. rewrite Z.mod_small by lia. replace (mb * 8 + 9223372036854775808 - 9223372036854775808)%Z with (mb * 8)%Z by lia. rewrite Z.quot_mul by lia. reflexivity.
Qed.
(** Otherwise it has another size. *)
Theorem C94_filter_refuted : exists b, int64 (fl_mbytes b) /\ (0 < fl_mbytes b)%Z /\ filter_from_config (filter_config b) = Ok (MkFnv32 (fl_k b) 0).
Proof. exists (MkFnv32 3 (2 ^ 61)). vm_compute. repeat split; discriminate. Qed.
(** Other names are refused. *)
Theorem C94_names : forall c, (exists b, filter_from_config c = Ok b) <-> fc_name c = Spec.Str.bs "fnv32"%string.
Proof.
  assert (Q : forall a b, eq_bytes a b = true <-> a = b).
  { induction a as [|x a IH]; intros [|y b]; cbn [eq_bytes]; split; try congruence. - intros H. apply Bool.andb_true_iff in H. destruct H as [E H]. apply N.eqb_eq in E. apply IH in H. congruence.
    - intros [= -> ->]. rewrite N.eqb_refl. apply IH. reflexivity. }
  intros c. unfold filter_from_config. rewrite <- Q. destruct (eq_bytes _ _); split; eauto; intros; try discriminate. destruct H as [b H]. discriminate.
Qed.
Print Assumptions C94_blotter.
Print Assumptions C94_filter_partial.
Print Assumptions C94_filter_refuted.
Print Assumptions C94_names.
Example C94_example : forall u, exists b b', blotter_from_config (MkBlotConfig 3 2) = Ok b /\ blotted u b b' /\ b <> b' /\ blotter_config b' = Ok (MkBlotConfig 3 2) /\
  filter_from_config (filter_config (MkFnv32 3 100)) = Ok (MkFnv32 3 100).
Proof.
  intros u. do 2 eexists. split; [reflexivity|]. split; [eapply (blotted_word u _ (Spec.Str.bs "a"%string)); [vm_compute; reflexivity|constructor]|].
  split; [discriminate|]. split; reflexivity.
Qed.
