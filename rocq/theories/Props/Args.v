(** The command line: C48, C53. *)
From Coq Require Import String.
From Verif Require Import Model.Base Model.Path Model.Args Spec.Str Proof.Tactics Proof.ArgsP.
Local Open Scope N_scope.
Local Open Scope list_scope.

Definition a_verb (a : bytes) : Prop := In a (map bs ["index"; "extract"; "blot"; "unblot"; "inspect"; "like"]%string).
Lemma a_verb_iff a : is_verb a = true <-> a_verb a.
Proof.
  unfold is_verb, a_verb. rewrite existsb_exists. split.
  - intros (x & I & E). apply beq_iff in E. subst x. exact I.
  - intros I. exists a. split; [exact I|]. apply beq_iff. reflexivity.
Qed.
Lemma not_verbs l : Forall (fun a => ~ a_verb a) l -> Forall (fun a => is_verb a = false) l.
Proof. apply Forall_impl. intros a H. destruct (is_verb a) eqn:E; [|reflexivity]. destruct H. apply a_verb_iff, E. Qed.

(** C48: "The arguments before the first verb are the global ones, everything from the verb
    on belongs to the verb, nothing is lost; without any verb usage is printed." *)
Theorem C48_splits_at_first_verb pre v post : Forall (fun a => ~ a_verb a) pre -> a_verb v ->
  split_args (pre ++ v :: post) = (pre, v :: post) /\
  forall env home, main (pre ++ v :: post) env home = Usage \/ exists root, main (pre ++ v :: post) env home = RunVerb v post root.
Proof.
  intros P V. apply not_verbs in P. apply a_verb_iff in V. pose proof (split_at v post pre P V) as E. split; [exact E|].
  intros env home. unfold main. rewrite E, V. destruct (parse_flags _ _ _); [left; reflexivity|right; eauto].
Qed.
Print Assumptions C48_splits_at_first_verb.
Theorem C48_nothing_lost args : fst (split_args args) ++ snd (split_args args) = args.
Proof. apply firstn_skipn. Qed.
Print Assumptions C48_nothing_lost.
Theorem C48_no_verb_usage args env home : Forall (fun a => ~ a_verb a) args -> main args env home = Usage.
Proof.
  intros P. apply not_verbs in P. unfold main. pose proof (split_none args P) as S. destruct (split_args args) as [g [|v l]]; [reflexivity|].
  rewrite (S v l eq_refl). reflexivity.
Qed.
Print Assumptions C48_no_verb_usage.
(** Every argument list is one of the two. *)
Theorem C48_all_lists args : Forall (fun a => ~ a_verb a) args \/
  exists pre v post, args = pre ++ v :: post /\ Forall (fun a => ~ a_verb a) pre /\ a_verb v.
Proof.
  assert (forall l, Forall (fun a => is_verb a = false) l -> Forall (fun a => ~ a_verb a) l) as K.
  { intros l. apply Forall_impl. intros a E V. apply a_verb_iff in V. congruence. }
  destruct (first_verb args) as [(pre & v & post & E & P & V)|P]; [right|left; auto].
  exists pre, v, post. split; [exact E|]. split; [auto|]. apply a_verb_iff, V.
Qed.
Print Assumptions C48_all_lists.
Example C48_example : split_args (map bs ["-r"; "d"; "index"; "-a"; "like"]%string) = (map bs ["-r"; "d"]%string, map bs ["index"; "-a"; "like"]%string).
Proof. reflexivity. Qed.
(** Without a verb the last argument is handed over as if it were one; main then finds
    that it is not. *)
Example C48_example_no_verb : split_args (map bs ["-r"; "d"]%string) = (map bs ["-r"]%string, map bs ["d"]%string) /\
  main (map bs ["-r"; "d"]%string) [] None = Usage.
Proof. split; reflexivity. Qed.

(** C53: "A command given -r R before its verb works on the index at R."

    Holds when the global arguments are only such options, in any of the four notations
    (the last one counts), and none of them is the name of a verb. *)
Theorem C53_root_option_partial pre v post R env home : root_options pre [] R -> R <> [] ->
  Forall (fun a => ~ a_verb a) pre -> a_verb v -> main (pre ++ v :: post) env home = RunVerb v post R.
Proof.
  intros O N P V. apply not_verbs in P. apply a_verb_iff in V. unfold main. rewrite (split_at v post pre P V), V.
  rewrite (parse_options pre [] R O) by lia. destruct R; [congruence|reflexivity].
Qed.
Print Assumptions C53_root_option_partial.
(** False in general: a root called like a verb is taken for the verb... *)
Theorem C53_root_option_refuted :
  ~ (forall R v post env home, R <> [] -> a_verb v -> exists root, main ([bs "-r"; R] ++ v :: post) env home = RunVerb v post root /\ root = R).
Proof.
  intros H. specialize (H (bs "index") (bs "index") [] [] None). destruct H as (root & E & _); [discriminate|left; reflexivity|]. discriminate E.
Qed.
Print Assumptions C53_root_option_refuted.
(** ...and an option after an argument that is not an option is silently ignored: the
    command runs on the default index. *)
Theorem C53_ignored_option_refuted x R v post env home : hd 0 x <> 45 -> ~ a_verb x -> ~ a_verb R -> a_verb v ->
  main ([x; bs "-r"; R] ++ v :: post) env home = RunVerb v post (index_root [] env home).
Proof.
  intros X NX NR V. unfold main. rewrite (split_at v post [x; bs "-r"; R]); [| |apply a_verb_iff, V].
  - apply a_verb_iff in V. rewrite V. cbn [List.length]. destruct x as [|c x]; [reflexivity|]. cbn [hd] in X.
    destruct c as [|p]; [reflexivity|]. repeat (destruct p as [p|p|]; try reflexivity). congruence.
  - apply not_verbs. constructor; [exact NX|]. constructor; [|constructor; [exact NR|constructor]].
    intros H. apply a_verb_iff in H. discriminate H.
Qed.
Print Assumptions C53_ignored_option_refuted.
Example C53_example : main (map bs ["-r=a"; "--r"; "/my/idx"; "like"; "f"]%string) (bs "/env"%string) None = RunVerb (bs "like"%string) [bs "f"%string] (bs "/my/idx"%string) /\
  root_options (map bs ["-r=a"; "--r"; "/my/idx"]%string) [] (bs "/my/idx"%string).
Proof.
  split; [reflexivity|]. apply (ros_cons [bs "-r="%string ++ bs "a"%string] (map bs ["--r"; "/my/idx"]%string) _ (bs "a"%string)); [constructor|].
  apply (ros_cons (map bs ["--r"; "/my/idx"]%string) [] _ (bs "/my/idx"%string)); constructor.
Qed.
Example C53_example_ignored : main (map bs ["x"; "-r"; "/a"; "index"; "d"]%string) [] (Some (bs "/home/u"%string)) =
  RunVerb (bs "index"%string) [bs "d"%string] (bs "/home/u/.dupi"%string).
Proof. vm_compute. reflexivity. Qed.
