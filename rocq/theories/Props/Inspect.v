(** The verb inspect: C74. *)
From Coq Require Import String QArith Qabs.
From Verif Require Import Model.Base Model.Path Model.Utf8 Model.Token Model.Fnames Model.Dmd Model.Shard Model.Blotter Model.Conc Model.Run Model.Config Model.Index Model.Query Model.Session Model.Float Model.Stats Model.Json Model.Root Model.Options Model.Inspect.
From Verif Require Import Spec.Text Spec.Fingerprint Spec.Paths Spec.Configs Spec.Reading Spec.Querying Spec.History Spec.Str Spec.Mean Spec.Printed Spec.Double Spec.Inspected.
From Verif Require Import Proof.Tactics Proof.TokenP Proof.BlotterP Proof.ShatterP Proof.PathP Proof.QueryP Proof.QueryW Proof.SessionP Proof.OptionsP Proof.InspectP2 Proof.InspectP3.
From Verif Require Import Props.Stats.
Local Open Scope N_scope.
Local Open Scope list_scope.

(** C74: "inspect prints the root of the index, the numbers of documents, of nodes of the path
    tree, of posts and of blots, and the mean and standard deviation of the number of documents
    per blot, with two places; with -json a JSON object with the same values, the last two such
    that they are read back exactly."
    The number of documents is one too many (C32). *)
Theorem C74_plain : forall u c k m n sorted, cfg_full c k m n -> sorts sorted ->
  forall ss dk wss, history u c ss dk -> docs_fit (all_docs ss) -> words_of (word_char u) (all_docs ss) wss ->
  let mu := average (per_blot (word_hash u) k m n wss) in
  let var := variance (per_blot (word_hash u) k m n wss) in
  exists ix, open_index sorted dk = Ok ix /\ forall fuse, exists mean sigma t,
    inspect fuse false ix = (t, 0) /\
    shows_stats (cf_root c) (1 + nlen (all_docs ss)) (nlen (tree_nodes (all_docs ss))) (pairs (word_hash u) k m n wss) (N.of_nat n * 65536) mean sigma t /\
    (Qabs (mean - mu) <= 2 ^ (-51) * mu /\ (1 - 2 ^ (-35)) * var <= sigma * sigma <= (1 + 2 ^ (-35)) * (var + (2 ^ (-51) * mu) * (2 ^ (-51) * mu)))%Q.
Proof.
  intros u c k m n sorted F Hs ss dk wss Hi Fit Ww mu var. destruct (C66_mean_and_sigma u c k m n sorted F Hs ss dk wss Hi Fit Ww) as (ix & E & X).
  exists ix. split; [exact E|]. intros fuse. destruct (X fuse) as (mean & sigma & Em & M0 & Mb & Es & S0 & L & U).
  destruct (stats_small u c k m n sorted F Hs ss dk wss Hi Fit Ww ix E) as (St & Ec & L1 & L2 & L3 & L4).
  destruct (inspect_plain_ok fuse ix _ _ _ _ mean sigma St L1 L2 L3 L4 Em Es M0 S0) as (t & Et & Sh). exists mean, sigma, t. rewrite Ec in Sh. auto.
Qed.
Print Assumptions C74_plain.
Theorem C74_json : forall u c k m n sorted, cfg_full c k m n -> sorts sorted -> text_path (cf_root c) ->
  forall ss dk wss, history u c ss dk -> docs_fit (all_docs ss) -> words_of (word_char u) (all_docs ss) wss ->
  let mu := average (per_blot (word_hash u) k m n wss) in
  let var := variance (per_blot (word_hash u) k m n wss) in
  exists ix, open_index sorted dk = Ok ix /\ forall fuse, exists mean sigma t v,
    inspect fuse true ix = (t, 0) /\ json_parse t = Some v /\
    value_stats (cf_root c) (1 + nlen (all_docs ss)) (nlen (tree_nodes (all_docs ss))) (pairs (word_hash u) k m n wss) (N.of_nat n * 65536) mean sigma v /\
    (Qabs (mean - mu) <= 2 ^ (-51) * mu /\ (1 - 2 ^ (-35)) * var <= sigma * sigma <= (1 + 2 ^ (-35)) * (var + (2 ^ (-51) * mu) * (2 ^ (-51) * mu)))%Q.
Proof.
  intros u c k m n sorted F Hs [rs Tx] ss dk wss Hi Fit Ww mu var. destruct (C66_mean_and_sigma u c k m n sorted F Hs ss dk wss Hi Fit Ww) as (ix & E & X).
  exists ix. split; [exact E|]. intros fuse. destruct (X fuse) as (mean & sigma & Em & M0 & Mb & Es & S0 & L & U).
  destruct (stats_small u c k m n sorted F Hs ss dk wss Hi Fit Ww ix E) as (St & Ec & L1 & L2 & L3 & L4). rewrite <- Ec in Tx.
  destruct (inspect_json_ok fuse ix _ _ _ _ mean sigma rs St L1 L2 L3 L4 Em Es M0 S0 Tx) as (t & v & Et & Ev & Sh). exists mean, sigma, t, v. rewrite Ec in Sh.
  split; [exact Et|]. split; [exact Ev|]. split; [exact Sh|]. auto.
Qed.
Print Assumptions C74_json.

(** What is written for a number of float64 in JSON is read back as that number, by the rule
    of IEEE 754; it is as short as possible. *)
Theorem C74_numbers : forall x, double x -> (0 <= x)%Q -> exists t, json_float (Fin x) = Some t /\ exactly x t.
Proof. intros x D P. destruct (json_float_ok x D P) as (t & E & _ & X). eauto. Qed.
Print Assumptions C74_numbers.

(** Of an index made with -n 0 (which is accepted, C61), inspect -json prints nothing and
    fails: the mean is 0/0. *)
Theorem C74_no_shards_refuted : forall u sorted fuse dirs there file cwd root, there (path_abs cwd root) = false ->
  let start s := get_indexer dirs there file cwd root (MkOpts false 0 s 10 []) in
  (exists dk ix, session u (start 1%Z) [] dk /\ open_index sorted dk = Ok ix) /\
  forall s docs dk ix, session u (start s) docs dk -> open_index sorted dk = Ok ix ->
    inspect fuse true ix = ([], 1) /\ exists a, inspect fuse false ix = (a ++ bs "NaN" ++ bs " sigma (std deviation)" ++ [10], 0).
Proof.
  intros u sorted fuse dirs there file cwd root Ht start. split.
  - destruct (get_indexer_ok dirs there file cwd root 0 1 ltac:(lia) Ht) as (x & ws & E & Ec & Ex & Lw & Lx & _).
    destruct ws as [|w [|w' ws]]; try discriminate Lw. unfold create_indexer in Ec. cbn [cf_numshards cf_token cf_flush] in Ec.
    change (0 <? 0)%Z with false in Ec. cbv iota in Ec. change (token_from_config words_simple) with (@Ok unit tt) in Ec. cbn [bind] in Ec.
    destruct (new_adder None 16384) as [a|e| |] eqn:Ea; try discriminate Ec. cbn [bind] in Ec. injection Ea as <-.
    destruct (start_workers _) as [ws|e| |]; try discriminate Ec. cbn [bind] in Ec. injection Ec as <- ->.
    eexists _, _. split.
    + unfold start. eapply (Session _ _ _ _ [w] _ _ _ _ 0%nat); [exact E|reflexivity| |].
      * eapply steps_step; [eapply steps_step; [eapply steps_step; [apply steps_refl|]|]|].
        -- apply StepClose; [reflexivity|]. repeat constructor.
        -- eapply (StepShutdown _ _ _ 0 0%nat w); reflexivity.
        -- apply StepShutDone. reflexivity.
      * reflexivity.
    + reflexivity.
  - intros s docs dk ix Se Op. inversion Se as [x ws fn dm ids st j E _ _ _]. subst dk. unfold start in E.
    destruct (get_indexer_ok dirs there file cwd root 0 s ltac:(lia) Ht) as (x' & ws' & E' & _ & Ex & _ & _ & _). rewrite E in E'. injection E' as <- <-.
    assert (Sh : ix_shards ix = []).
    { unfold open_index, Session.read_config in Op. cbn [k_cfg] in Op. rewrite Ex in Op. cbn [cf_numshards] in Op. revert Op.
      match goal with |- context [cfg_check ?c] => destruct (cfg_check c) end; cbn [bind]; try discriminate. destruct (read_some Ok _); cbn [bind]; try discriminate. destruct (read_some read_fnames _); cbn [bind]; try discriminate.
      intros Op. cbn in Op. injection Op as <-. reflexivity. }
    destruct (inspect_no_shards fuse ix Sh) as (A & B & a & C). split; [exact A|]. exists a. rewrite B, C. reflexivity.
Qed.
Print Assumptions C74_no_shards_refuted.

Example C74_example : forall u, (exists dk, history u wit_config [wit_docs] dk) /\ docs_fit (all_docs [wit_docs]) /\
  cfg_full wit_config 1 10 2 /\ words_of (word_char u) (all_docs [wit_docs]) wit_wss /\ text_path (cf_root wit_config).
Proof.
  intros u. rewrite all_docs_one. split.
  { destruct wit_full as [A B C]. apply (history_exists u wit_config 1 10 2 A B C); [discriminate|reflexivity|exact wit_fit]. }
  split; [exact wit_fit|]. split; [exact wit_full|]. split; [exact (wit_words u)|].
  exists (cf_root wit_config). split; [repeat constructor; cbv; auto 20; intuition discriminate|reflexivity].
Qed.
Example C74_numbers_example :
  json_float (Fin (5 # 131072)) = Some (bs "0.00003814697265625") /\
  json_float (round64 (1 # 3)) = Some (bs "0.3333333333333333") /\ json_float (round64 (1 # 10000000)) = Some (bs "1e-7") /\
  print_2f (Fin (5 # 131072)) = bs "0.00" /\ print_2f (round64 (1234567 # 1000)) = bs "1234.57".
Proof. repeat split; vm_compute; reflexivity. Qed.
