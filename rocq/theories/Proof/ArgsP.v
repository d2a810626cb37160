From Coq Require Import String.
From Verif Require Import Model.Base Model.Path Model.Args Spec.Str Proof.Tactics.
Local Open Scope N_scope.
Local Open Scope list_scope.

Lemma beq_iff a : forall b, beq a b = true <-> a = b.
Proof.
  induction a as [|x a IH]; intros [|y b]; cbn [beq]; split; try discriminate; try reflexivity.
  - intros H. apply andb_true_iff in H. destruct H as [H1 H2]. apply IH in H2. f_equal; [lia|exact H2].
  - intros H. injection H as -> ->. rewrite N.eqb_refl. apply IH. reflexivity.
Qed.
Lemma split_loop_at v post pre : Forall (fun a => is_verb a = false) pre -> is_verb v = true ->
  forall i0 i, split_loop i0 i (pre ++ v :: post) = (i + List.length pre)%nat.
Proof.
  intros P V. induction pre as [|a r IH]; intros i0 i; cbn [app split_loop List.length]; [rewrite V; lia|].
  rewrite (Forall_inv P). rewrite IH by exact (Forall_inv_tail P). lia.
Qed.
Lemma split_at v post pre : Forall (fun a => is_verb a = false) pre -> is_verb v = true ->
  split_args (pre ++ v :: post) = (pre, v :: post).
Proof.
  intros P V. unfold split_args. rewrite (split_loop_at v post pre P V). cbn [Nat.add].
  rewrite firstn_app, skipn_app, firstn_all, skipn_all, Nat.sub_diag, app_nil_r. reflexivity.
Qed.
Lemma split_none args : Forall (fun a => is_verb a = false) args -> forall v r, snd (split_args args) = v :: r -> is_verb v = false.
Proof.
  intros P v r E. unfold split_args in E. cbn [snd] in E. rewrite Forall_forall in P. apply P.
  rewrite <- (firstn_skipn (split_loop 0 0 args) args), E. apply in_or_app. right. left. reflexivity.
Qed.
Lemma first_verb args : (exists pre v post, args = pre ++ v :: post /\ Forall (fun a => is_verb a = false) pre /\ is_verb v = true) \/
  Forall (fun a => is_verb a = false) args.
Proof.
  induction args as [|a r IH]; [right; constructor|]. destruct (is_verb a) eqn:V; [left; exists [], a, r; auto|].
  destruct IH as [(pre & v & post & -> & P & Hv)|P]; [left; exists (a :: pre), v, post; auto|right; auto].
Qed.

(** The ways of writing the option. *)
Inductive root_option : list bytes -> bytes -> Prop :=
| ro_one R : root_option [bs "-r"; R] R
| ro_two R : root_option [bs "--r"; R] R
| ro_eq_one R : root_option [bs "-r=" ++ R] R
| ro_eq_two R : root_option [bs "--r=" ++ R] R.
Inductive root_options : list bytes -> bytes -> bytes -> Prop :=
| ros_nil R : root_options [] R R
| ros_cons a r R0 R1 R : root_option a R1 -> root_options r R1 R -> root_options (a ++ r) R0 R.
Lemma parse_one a R : root_option a R -> forall fuel rest R0, parse_flags (S fuel) (a ++ rest) R0 = parse_flags fuel rest R.
Proof. intros H. destruct H; intros fuel rest R0; reflexivity. Qed.
Lemma parse_options a R0 R : root_options a R0 R -> forall fuel, (List.length a < fuel)%nat -> parse_flags fuel a R0 = PDone R [].
Proof.
  intros H. induction H as [R|a r R0 R1 R O _ IH]; intros [|fuel] L; try lia; [reflexivity|].
  rewrite (parse_one _ _ O). apply IH. rewrite app_length in L. destruct O; cbn [List.length] in L; lia.
Qed.
