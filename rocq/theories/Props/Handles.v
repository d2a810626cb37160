(** C86, C87: files and goroutines are given back; errors of closing files. *)
From Coq Require Import Lia.
From Verif Require Import Model.Base Model.Handles Spec.Handles Proof.HandlesP.

(** C86 for an Index, whatever the outcomes of the calls ([o]; [true]: success): once it has
    been opened, Close gives everything back, also when it returns an error. *)
Theorem C86_index : forall n o e o1 e' o2 ok,
  open_index_h n o = (e, o1, true) -> close_index_h n o1 = (e', o2, ok) -> nothing_held (e ++ e').
Proof. exact index_balanced. Qed.
(** For an Indexer, created or opened, with any Adds: everything is given back if Close
    returns nil. If not, it can be that all posting files stay open, and nothing else. *)
Theorem C86_indexer_partial : forall n w a o e o1 l e1 o2 ok1 flush e2 o3 ok, (a = create_h n w \/ a = open_h n w) ->
  a o = (e, o1, true) -> adds_h l o1 = (e1, o2, ok1) -> close_h n w flush o2 = (e2, o3, ok) ->
  nothing_held (e ++ e1 ++ e2) \/
  (ok = false /\ forall h, balance h (e ++ e1 ++ e2) = match h with HPosts j => if (j <? n)%nat then 1%Z else 0%Z | _ => 0%Z end).
Proof. exact indexer_balanced. Qed.
(** It fails for Close: when the configuration cannot be opened for writing (the first call
    that Close makes), it returns without closing the shards. *)
Theorem C86_failed_close_refuted : forall n w a o e flush i, (a = create_h n w \/ a = open_h n w) -> a o = (e, [false], true) -> (i < n)%nat ->
  exists e2 o3, close_h n w flush [false] = (e2, o3, false) /\ still_held (e ++ e2) (HPosts i).
Proof.
  intros n w a o e flush i Ha E Hi.
  assert (B : forall h, balance h e = opened n w h) by (destruct Ha as [->| ->]; [eapply create_ok|eapply open_ok]; exact E).
  unfold close_h. unfold deferring. unfold andthen at 1. rewrite ends_all. unfold andthen at 1. rewrite ends_all.
  cbn [andthen holding opening next]. eexists _, _. split; [reflexivity|]. unfold still_held.
  rewrite !balance_app, B, !ended. unfold opened. rewrite posts_at. cbn [Nat.leb andb]. replace (0 + n)%nat with n by lia.
  destruct (Nat.ltb_spec i n); [|lia]. change (balance (HPosts i) [Give HLock]) with 0%Z. change (balance (HPosts i) []) with 0%Z. change (ind HLock (HPosts i)) with 0%Z. lia.
Qed.
(** And it fails for opening and creating: if they return an error, everything they had opened
    and the goroutines they had started stay; only the files that are read whole are closed. *)
Theorem C86_failed_open_refuted : forall n w a o e o', (a = open_index_h n \/ a = create_h n w \/ a = open_h n w) -> a o = (e, o', false) ->
  forall h, (h = HLock \/ h = HDmd \/ (exists i, h = HPosts i) \/ (exists i, h = HServe i)) -> In (Take h) e -> still_held e h.
Proof.
  intros n w a o e o' Ha E h Hh T. apply taken_held; [exact T|].
  assert (L : lasting h = true) by (destruct Hh as [->|[->|[[i ->]|[i ->]]]]; reflexivity).
  destruct Ha as [->|[->| ->]]; [eapply keeps_open_index|eapply keeps_create|eapply keeps_open]; eauto.
Qed.
Print Assumptions C86_index.
Print Assumptions C86_indexer_partial.
Print Assumptions C86_failed_close_refuted.
Print Assumptions C86_failed_open_refuted.

(** Two shards, the second one without a table: one server and three files stay. And an
    indexer that can be opened, with two workers, when the next call fails. *)
Example C86_example :
  (exists e o', open_h 2 2 [true; true; true; true; true; true; true; true; true; true; true; true; true; true; true; false] = (e, o', false) /\
    In (Take HLock) e /\ In (Take (HPosts 0)) e /\ In (Take (HServe 0)) e) /\
  (exists o e, open_h 2 2 o = (e, [false], true)).
Proof. split; [eexists _, _|exists (repeat true 21 ++ [false]); eexists]; vm_compute; auto 20. Qed.

(** C87 fails. Index.Close returns nil when the lock could not be released and closed (both
    are tried: no outcome is left over) ... *)
Theorem C87_lock_refuted : forall n, exists e, close_index_h n (repeat true (S n) ++ [false; false]) = (e, [], true).
Proof.
  intros n. unfold close_index_h, deferring, both. cbn [repeat app]. unfold closing at 1. cbn [next].
  assert (X : forall n i o, exists e, in_any_case (fun i => closing (HPosts i)) i n (repeat true n ++ o) = (e, o, true)).
  { clear n. induction n as [|n IH]; intros i o; cbn [in_any_case repeat app]; [eexists; reflexivity|]. unfold both, closing at 1. cbn [next].
    destruct (IH (S i) o) as [e ->]. eexists. reflexivity. }
  destruct (X n 0%nat [false; false]) as [e ->]. eexists. reflexivity.
Qed.
(** ... but the errors of the other files it returns. *)
Theorem C87_index_partial : forall n o e o' ok, close_index_h n o = (e, o', ok) ->
  ok = forallb (fun b => b) (firstn (S n) o).
Proof.
  intros n o e o' ok E.
  assert (X : forall n i o, snd (in_any_case (fun i => closing (HPosts i)) i n o) = forallb (fun b => b) (firstn n o)).
  { clear. induction n as [|n IH]; intros i o; cbn [in_any_case]; [reflexivity|]. unfold both, closing at 1. destruct o as [|b o]; cbn [next firstn forallb].
    - specialize (IH (S i) []). rewrite firstn_nil in IH. destruct (in_any_case _ (S i) n []) as [[e2 o2] ok2]. cbn [snd] in *. subst ok2. reflexivity.
    - specialize (IH (S i) o). destruct (in_any_case _ (S i) n o) as [[e2 o2] ok2]. cbn [snd] in *. subst ok2. reflexivity. }
  unfold close_index_h, deferring, both, closing at 1 in E. destruct o as [|b o]; cbn [next] in E.
  - pose proof (X n 0%nat []) as Y. rewrite firstn_nil in Y. destruct (in_any_case _ 0%nat n []) as [[e2 o2] ok2]. cbn [snd] in Y. subst ok2. destruct (lock_close o2) as [[e3 o3] ok3].
    inversion E. reflexivity.
  - pose proof (X n 0%nat o) as Y. destruct (in_any_case _ 0%nat n o) as [[e2 o2] ok2]. cbn [snd] in Y. subst ok2. destruct (lock_close o2) as [[e3 o3] ok3].
    inversion E. reflexivity.
Qed.
(** Indexer.Close returns nil when every single File.Close fails ([calls]: everything else
    succeeds). Systems that report failed writes at that time only (network file systems,
    quotas) can lose the index without a word. *)
Theorem C87_indexer_refuted : forall n w (flush : bool),
  let calls : list bool := [true; true; false; true; true; false] ++ (if flush then [true; true; false] else []) ++
               concat (repeat [true; false; true; true; false] n) ++ [true; false] in
  exists e, close_h n w flush calls = (e, [], true).
Proof.
  intros n w flush calls. unfold close_h. unfold deferring at 1. unfold andthen at 1. rewrite ends_all. unfold andthen at 1. rewrite ends_all.
  assert (X : forall n i o, exists e, in_any_case shard_close_h i n (concat (repeat [true; false; true; true; false] n) ++ o) = (e, o, true)).
  { clear. induction n as [|n IH]; intros i o; cbn [in_any_case repeat concat app]; [eexists; reflexivity|].
    unfold both. unfold shard_close_h at 1. unfold holding, andthen, deferring, opening, closing, working. cbn [next].
    destruct (IH (S i) o) as [e ->]. eexists. reflexivity. }
  subst calls. destruct flush; cbn [app]; unfold add_h, holding, andthen, deferring, opening, closing, working, fine; cbn [next];
    destruct (X n 0%nat [true; false]) as [e ->]; eexists; reflexivity.
Qed.
Print Assumptions C87_lock_refuted.
Print Assumptions C87_index_partial.
Print Assumptions C87_indexer_refuted.
(** With one shard and one worker: all four files and the lock are closed. *)
Example C87_example : exists e, close_h 1 1 true [true; true; false; true; true; false; true; true; false; true; false; true; true; false; true; false] = (e, [], true) /\
  (forall h, In h [HConfig; HNames; HDmd; HPosts 0; HTable 0; HLock] -> In (Give h) e).
Proof. eexists. split; [vm_compute; reflexivity|]. intros h Hh. cbn in Hh. repeat (destruct Hh as [<-|Hh]; [cbn; auto 20|]). destruct Hh. Qed.
