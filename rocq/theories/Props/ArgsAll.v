(** C53 for all argument lists: which verb runs, with which arguments, on which root. *)
From Coq Require Import String.
From Verif Require Import Model.Base Model.Path Model.Args Model.Flags Model.Verbs Spec.Str Spec.Cmdline
  Proof.Tactics Proof.ArgsP Proof.FlagsP Proof.VerbsP Props.Args.
From Coq Require Import Lia.
Local Open Scope N_scope.
Local Open Scope list_scope.

(** The options before the verb, from the usage text: -r with a text. *)
Definition global_has := has_flags [("r", Text)]%string.
(** The root: what -r says if that is not empty, else DUPIROOT, else .dupi in the home
    directory, and dupi if there is none. *)
Definition root_is (r env : bytes) (home : option bytes) (root : bytes) : Prop :=
  r <> [] /\ root = r \/
  r = [] /\ (env <> [] /\ root = env \/
             env = [] /\ (home = None /\ root = bs "dupi" \/ exists h, home = Some h /\ root = clean_rooted (h ++ bs "/.dupi"))).
Lemma root_iff r env home root : index_root r env home = root <-> root_is r env home root.
Proof.
  unfold index_root, root_is. change (bs "/.dupi") with (sep :: bs ".dupi"). destruct r as [|c r].
  - destruct env as [|e env].
    + destruct home as [h|].
      * split; [intros <-; right; split; [reflexivity|]; right; split; [reflexivity|]; right; eauto|].
        intros [[H _]|(_ & [[H _]|(_ & [[H _]|(h' & [= <-] & ->)])])]; [now destruct H|now destruct H|discriminate|reflexivity].
      * split; [intros <-; right; split; [reflexivity|]; right; split; [reflexivity|]; left; auto|].
        intros [[H _]|(_ & [[H _]|(_ & [[_ ->]|(h' & H & _)])])]; [now destruct H|now destruct H|reflexivity|discriminate].
    + split; [intros <-; right; split; [reflexivity|]; left; split; [discriminate|reflexivity]|].
      intros [[H _]|(_ & [[_ ->]|(H & _)])]; [now destruct H|reflexivity|discriminate].
  - split; [intros <-; left; split; [discriminate|reflexivity]|]. intros [[_ ->]|(H & _)]; [reflexivity|discriminate].
Qed.

Definition global_flags : flagset := [(bs "r", KString)].
Lemma global_parse : forall fuel args r, (List.length args < fuel)%nat ->
  parse_flags fuel args r = match parse_verb fuel global_flags args with
                            | FDone sets rest => PDone (match last_set (bs "r") sets (VString r) with VString s => s | _ => r end) rest
                            | FExit _ => PUsage
                            end.
Proof.
  induction fuel as [|fuel IH]; intros args r L; [lia|]. destruct args as [|s rest]; [reflexivity|]. cbn [List.length] in L.
  destruct s as [|c s]; [reflexivity|]. destruct (N.eq_dec c 45) as [->|Hc].
  2:{ cbn [parse_flags parse_verb]. destruct c as [|c]; [reflexivity|]. do 6 (destruct c as [c|c|]; try reflexivity). contradiction. }
  destruct s as [|c s1]; [reflexivity|]. cbn [parse_flags parse_verb].
  destruct ((c =? 45) && match s1 with [] => true | _ => false end); [reflexivity|].
  destruct (if c =? 45 then s1 else c :: s1) as [|c0 name]; [reflexivity|]. destruct ((c0 =? 45) || (c0 =? 61)); [reflexivity|].
  destruct (cut_value (c0 :: name)) as [n v]. unfold global_flags at 1. cbn [lookup].
  replace (beq (bs "r") n) with (beq n (bs "r")).
  2:{ destruct (beq n (bs "r")) eqn:E; symmetry; [apply beq_iff in E; subst n; reflexivity|]. destruct (beq (bs "r") n) eqn:E'; [|reflexivity]. apply beq_iff in E'. subst n. discriminate E. }
  destruct (beq n (bs "r")) eqn:E.
  - apply beq_iff in E. subst n.
    assert (St : forall v rest', (List.length rest' < fuel)%nat -> parse_flags fuel rest' v =
      match then_set (bs "r") (VString v) (parse_verb fuel global_flags rest') with
      | FDone sets rest => PDone (match last_set (bs "r") sets (VString r) with VString s => s | _ => r end) rest | FExit _ => PUsage end).
    { intros w rest' L'. rewrite (IH rest' w L'). destruct (parse_verb fuel global_flags rest') as [sets rs|st] eqn:Pv; cbn [then_set]; [|reflexivity]. cbn [last_set].
      change (beq (bs "r") (bs "r")) with true. cbv iota. f_equal.
      (* every value set is a string *)
      assert (Str : forall l d, (forall n x, In (n, x) l -> exists s, x = VString s) -> exists s, last_set (bs "r") l (VString d) = VString s).
      { clear. induction l as [|[n x] l IHl]; intros d H; [exists d; reflexivity|]. cbn [last_set]. destruct (H n x (or_introl eq_refl)) as [s ->].
        destruct (beq n (bs "r")); apply IHl; intros n' x' I; exact (H n' x' (or_intror I)). }
      assert (All : forall n x, In (n, x) sets -> exists s, x = VString s).
      { clear - Pv. revert rest' sets Pv. induction fuel as [|fuel IHf]; intros rest' sets Pv n x I; [injection Pv as <- <-; destruct I|].
        destruct rest' as [|s rest']; [injection Pv as <- <-; destruct I|]. destruct s as [|c s]; [injection Pv as <- <-; destruct I|].
        destruct (N.eq_dec c 45) as [->|Hc].
        2:{ assert (E : sets = []). { cbn [parse_verb] in Pv. destruct c as [|c]; [congruence|]. do 6 (destruct c as [c|c|]; try congruence). } subst sets. destruct I. }
        destruct s as [|c s1]; [injection Pv as <- <-; destruct I|]. cbn [parse_verb] in Pv.
        destruct ((c =? 45) && match s1 with [] => true | _ => false end); [injection Pv as <- <-; destruct I|].
        destruct (if c =? 45 then s1 else c :: s1) as [|c0 name]; [discriminate|]. destruct ((c0 =? 45) || (c0 =? 61)); [discriminate|].
        destruct (cut_value (c0 :: name)) as [m v]. unfold global_flags at 1 in Pv. cbn [lookup] in Pv.
        destruct (beq (bs "r") m); [|destruct (beq m (bs "help") || beq m (bs "h")); discriminate].
        destruct v as [v|].
        - cbn [set_value] in Pv. destruct (parse_verb fuel global_flags rest') as [sets' rs'|st] eqn:P'; cbn [then_set] in Pv; [|discriminate]. injection Pv as <- <-.
          destruct I as [[= <- <-]|I]; [eauto|]. exact (IHf _ _ P' n x I).
        - destruct rest' as [|v rest']; [discriminate|]. cbn [set_value] in Pv. destruct (parse_verb fuel global_flags rest') as [sets' rs'|st] eqn:P'; cbn [then_set] in Pv; [|discriminate]. injection Pv as <- <-.
          destruct I as [[= <- <-]|I]; [eauto|]. exact (IHf _ _ P' n x I). }
      destruct (Str sets w All) as [s ->]. reflexivity. }
    destruct v as [v|]; cbn [set_value]; [apply St; lia|]. destruct rest as [|v rest]; [reflexivity|]. cbn [List.length] in L. apply St. lia.
  - destruct (beq n (bs "help") || beq n (bs "h")); reflexivity.
Qed.

(** A verb runs exactly when it stands behind options that are right (a first argument that is
    none ends them, and what is behind it is ignored); it runs with all that is behind it, on
    the root that the last -r says. *)
Theorem C53_exact : forall args env home v post root,
  main args env home = RunVerb v post root <->
  exists pre os rest r, args = pre ++ v :: post /\ Forall (fun a => ~ a_verb a) pre /\ a_verb v /\
    reads_as global_has pre os rest /\ set_to eq "r" [] os r /\ root_is r env home root.
Proof.
  assert (K : forall pre r rest, parse_flags (S (List.length pre)) pre [] = PDone r rest <->
    exists os, reads_as global_has pre os rest /\ set_to eq "r" [] os r).
  { intros pre r rest. rewrite global_parse by lia.
    pose proof (take_iff global_flags global_has pre (fun sets rest => (get_string (bs "r") sets, rest)) (fun os rest a => set_to eq "r" [] os (fst a) /\ rest = snd a) (r, rest)) as T.
    unfold take, parse_args, get_string in T. split.
    - intros H. destruct T as [T _]; [repeat constructor; cbn; intuition discriminate|intros n; apply has_flags_of; repeat constructor| |].
      + intros os sets rest' [a1 a2] F. cbn [fst snd]. pose proof (get_string_set global_flags "r" os sets a1 eq_refl F) as G. unfold get_string in G. rewrite <- G. split; [intros [= <- <-]; auto|intros (<- & <-); reflexivity].
      + destruct T as (os & rest' & R & _ & S' & E); [|cbn [fst snd] in *; subst rest'; eauto]. destruct (parse_verb _ global_flags pre) as [sets rs|st]; [|discriminate]. injection H as <- <-. reflexivity.
    - intros (os & R & S'). destruct T as [_ T]; [repeat constructor; cbn; intuition discriminate|intros n; apply has_flags_of; repeat constructor| |].
      + intros os' sets rest' [a1 a2] F. cbn [fst snd]. pose proof (get_string_set global_flags "r" os' sets a1 eq_refl F) as G. unfold get_string in G. rewrite <- G. split; [intros [= <- <-]; auto|intros (<- & <-); reflexivity].
      + assert (V : valid is_number global_has os).
        { intros n v I. assert (Fn : exists k, global_has n = Some k). { destruct R as (ws & tail & _ & W & _). clear - W I. induction W as [|n' v' w os ws Wr W IH]; [destruct I|]. destruct I as [[= <- <-]|I]; [|exact (IH I)]. destruct Wr as [n' v' k d Hk _|n' v' k d Hk _ _|n' d Hk _]; eauto. }
          destruct Fn as [k Hk]. rewrite Hk. unfold global_has, has_flags in Hk. cbn [fold_right fst snd] in Hk. destruct (list_eq_dec N.eq_dec (bs "r") n); [|discriminate]. injection Hk as <-. exact Logic.I. }
        specialize (T (ex_intro _ os (ex_intro _ rest (conj R (conj V (conj S' eq_refl)))))). destruct (parse_verb _ global_flags pre) as [sets rs|st]; [|discriminate]. injection T as <- <-. reflexivity. }
  intros args env home v post root. split.
  - intros H. destruct (C48_all_lists args) as [P|(pre & v' & post' & -> & P & V)]; [rewrite (C48_no_verb_usage args env home P) in H; discriminate|].
    pose proof P as P'. apply not_verbs in P'. pose proof V as V'. apply a_verb_iff in V'. unfold main in H. rewrite (split_at v' post' pre P' V'), V' in H.
    destruct (parse_flags (S (List.length pre)) pre []) as [|r rest] eqn:Pf; [discriminate|]. apply K in Pf. destruct Pf as (os & R & S'). injection H as <- <- Hr. apply root_iff in Hr.
    exists pre, os, rest, r. auto 8.
  - intros (pre & os & rest & r & -> & P & V & R & S' & Hr). apply not_verbs in P. apply a_verb_iff in V. unfold main. rewrite (split_at v post pre P V), V.
    rewrite (proj2 (K pre r rest) (ex_intro _ os (conj R S'))). apply root_iff in Hr. rewrite Hr. reflexivity.
Qed.
Print Assumptions C53_exact.
Example C53_exact_example : main (map bs ["-r"; "a"; "-r="; "x"; "-r"; "b"; "like"; "f"]%string) (bs "/e") None = RunVerb (bs "like") [bs "f"] (bs "/e") /\
  root_is [] (bs "/e") None (bs "/e") /\ set_to eq "r" [] [(bs "r", bs "a"); (bs "r", [])] [].
Proof. split; [reflexivity|]. split; [right; split; [reflexivity|]; left; split; [discriminate|reflexivity]|reflexivity]. Qed.
