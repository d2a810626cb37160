(** C103: creating an index again after an attempt that failed. *)
From Coq Require Import String Lia.
From Verif Require Import Model.Base Model.Utf8 Model.Token Model.Blotter Model.Poster Model.Shard Model.Dmd Model.Fnames Model.Config Model.Json Model.Run Model.Index Model.Query Model.Session Model.Crash Model.CloseFault Model.CreateFault.
From Verif Require Import Spec.Text Spec.Fingerprint Spec.Configs Spec.History Spec.Str.
From Verif Require Import Proof.Tactics Proof.TokenP Proof.QueryW Proof.SessionP.
Local Open Scope N_scope.
Local Open Scope list_scope.

(** Whether the call number [i] (from 0) fails, and whether all before it succeed. *)
Definition first_failure (i : nat) (o : calls) : Prop := exists k o', o = repeat None i ++ Some k :: o'.
Definition no_failure (o : calls) : Prop := Forall (fun r => r = None) o.

Lemma no_failure_call o : no_failure o -> exists o', call o = (None, o') /\ no_failure o'.
Proof. intros H. destruct H as [|r o E H]; [exists []; split; [reflexivity|constructor]|]. subst r. exists o. auto. Qed.
Lemma no_failure_appends ws : forall f o, no_failure o -> exists o', appends_c ws f o = (f ++ concat ws, o', true) /\ no_failure o'.
Proof.
  induction ws as [|w ws IH]; intros f o H; cbn [appends_c concat]; [rewrite app_nil_r; eauto|].
  destruct (no_failure_call o H) as (o1 & -> & H1). destruct (IH (f ++ w) o1 H1) as (o2 & -> & H2). rewrite <- app_assoc. eauto.
Qed.
Lemma no_failure_shards n : forall o, no_failure o -> exists o', init_shards_c n o = (repeat new_shard_files n, o', true) /\ no_failure o'.
Proof.
  induction n as [|n IH]; intros o H; cbn [init_shards_c repeat]; [eauto|]. unfold init_create_c.
  destruct (no_failure_call o H) as (o1 & -> & H1). destruct (no_failure_appends iix_create_writes [] o1 H1) as (o2 & -> & H2). cbn [negb app].
  destruct (no_failure_call o2 H2) as (o3 & -> & H3). cbn [negb]. destruct (IH o3 H3) as (o4 & -> & H4). exists o4. unfold new_shard_files, iix_created. split; [reflexivity|exact H4].
Qed.

(** When there is no directory and no call fails, IndexerFromConfig does what [Session] and
    [Crash] have. *)
Theorem C103_first_time c o : no_failure o -> exists fs o',
  create_c c o None = (create_indexer c, fs, o') /\
  forall x ws, create_indexer c = Ok (x, ws) -> fs = Some (MkFiles None None None (repeat new_shard_files (Z.to_nat (cf_numshards c)))).
Proof.
  intros H. unfold create_c, create_indexer. destruct (no_failure_call o H) as (o1 & -> & H1). destruct (no_failure_call o1 H1) as (o2 & -> & H2).
  destruct (cf_numshards c <? 0)%Z; [do 2 eexists; split; [reflexivity|discriminate]|].
  destruct (no_failure_call o2 H2) as (o3 & -> & H3).
  destruct (token_from_config (cf_token c)); cbn [bind]; try (do 2 eexists; split; [reflexivity|discriminate]).
  destruct (no_failure_call o3 H3) as (o4 & -> & H4).
  destruct (new_adder None (cf_flush c)); cbn [bind]; try (do 2 eexists; split; [reflexivity|discriminate]).
  destruct (no_failure_shards (Z.to_nat (cf_numshards c)) o4 H4) as (o5 & -> & H5). cbn [negb]. do 2 eexists. split; [reflexivity|]. reflexivity.
Qed.
Print Assumptions C103_first_time.

Lemma appends_late ws : forall f i k o, (List.length ws <= i)%nat ->
  appends_c ws f (repeat None i ++ Some k :: o) = (f ++ concat ws, repeat None (i - List.length ws) ++ Some k :: o, true).
Proof.
  induction ws as [|w ws IH]; intros f i k o L; cbn [appends_c concat List.length] in *; [rewrite app_nil_r, Nat.sub_0_r; reflexivity|].
  destruct i as [|i]; [lia|]. cbn [repeat app call]. rewrite IH by lia. rewrite <- app_assoc. reflexivity.
Qed.
Lemma appends_early ws : forall f i k o, (i < List.length ws)%nat -> exists f' o', appends_c ws f (repeat None i ++ Some k :: o) = (f', o', false).
Proof.
  induction ws as [|w ws IH]; intros f i k o L; cbn [appends_c List.length] in *; [lia|].
  destruct i as [|i]; cbn [repeat app call]; [eauto|]. apply IH. lia.
Qed.
Lemma shards_early n : forall i k o, (i < n * (2 + List.length iix_create_writes))%nat -> exists fs o', init_shards_c n (repeat None i ++ Some k :: o) = (fs, o', false).
Proof.
  induction n as [|n IH]; intros i k o L; [exfalso; rewrite Nat.mul_0_l in L; inversion L|]. cbn [init_shards_c]. unfold init_create_c.
  destruct i as [|i]; cbn [repeat app call]; [cbn [negb]; eauto|].
  pose proof (fun f i k o => appends_late iix_create_writes f i k o) as Late. pose proof (fun f i k o => appends_early iix_create_writes f i k o) as Early.
  remember iix_create_writes as ws eqn:Ews. clear Ews.
  destruct (Nat.lt_ge_cases i (List.length ws)) as [L1|L1].
  - destruct (Early [] i k o L1) as (f' & o' & ->). cbn [negb]. eauto.
  - rewrite Late by exact L1. cbn [negb]. destruct (i - List.length ws)%nat as [|i'] eqn:Ei; cbn [repeat app call]; [cbn [negb]; eauto|].
    cbn [negb]. destruct (IH i' k o ltac:(lia)) as (fs & o' & ->). eauto.
Qed.

(** C103, as far as it holds: when one of the first three calls fails (those for the lock, and
    making the directory), nothing is left behind, and what comes next is a first attempt. *)
Theorem C103_before_the_directory_partial c i o : (0 <= cf_numshards c)%Z -> (i < 3)%nat -> first_failure i o ->
  exists o', create_c c o None = (Err EOther, None, o').
Proof.
  intros Hn L (k & o' & ->). unfold create_c. assert ((cf_numshards c <? 0)%Z = false) as -> by (apply Z.ltb_ge; exact Hn).
  destruct i as [|[|[|i]]]; [..|lia]; eexists; reflexivity.
Qed.
Print Assumptions C103_before_the_directory_partial.

(** When any later call fails, the attempt fails and leaves a directory: asking for dmd, and
    for each shard opening its table, each of the writes to it and opening its posting file. *)
Theorem C103_leaves_a_directory c x ws i o : create_indexer c = Ok (x, ws) ->
  (3 <= i < 4 + Z.to_nat (cf_numshards c) * (2 + List.length iix_create_writes))%nat -> first_failure i o ->
  exists fs o', create_c c o None = (Err EOther, Some fs, o').
Proof.
  intros E [L1 L2] (k & o' & ->). unfold create_indexer in E. unfold create_c. destruct i as [|[|[|i]]]; [lia..|]. cbn [repeat app call].
  destruct (cf_numshards c <? 0)%Z; [discriminate|]. destruct (token_from_config (cf_token c)); cbn [bind] in E; try discriminate.
  destruct i as [|i]; cbn [repeat app call]; [do 2 eexists; reflexivity|].
  destruct (new_adder None (cf_flush c)); cbn [bind] in E; try discriminate.
  destruct (shards_early (Z.to_nat (cf_numshards c)) i k o' ltac:(lia)) as (fs & o2 & ->). cbn [negb]. eauto.
Qed.
Print Assumptions C103_leaves_a_directory.

(** It needs no failing call: a configuration that IndexerFromConfig does not take, as one with
    another tokenizer, leaves a directory too. *)
Theorem C103_wrong_config c o : (0 <= cf_numshards c)%Z -> no_failure o ->
  exists fs o', create_c c o None = (create_indexer c, Some fs, o').
Proof.
  intros Hn H. unfold create_c, create_indexer. destruct (no_failure_call o H) as (o1 & -> & H1). destruct (no_failure_call o1 H1) as (o2 & -> & H2).
  assert ((cf_numshards c <? 0)%Z = false) as -> by (apply Z.ltb_ge; exact Hn).
  destruct (no_failure_call o2 H2) as (o3 & -> & H3).
  destruct (token_from_config (cf_token c)); cbn [bind]; try (do 2 eexists; reflexivity).
  destruct (no_failure_call o3 H3) as (o4 & -> & H4).
  destruct (new_adder None (cf_flush c)); cbn [bind]; try (do 2 eexists; reflexivity).
  destruct (no_failure_shards (Z.to_nat (cf_numshards c)) o4 H4) as (o5 & -> & H5). cbn [negb]. do 2 eexists. reflexivity.
Qed.
Print Assumptions C103_wrong_config.

(** C103 fails: whatever the calls that fail, and whatever the configurations, once an attempt
    has failed and has left a directory, no later attempt makes the index, and it cannot be
    opened for reading or appending. *)
Theorem C103_create_again_refuted c o r fs o1 : create_c c o None = (r, Some fs, o1) -> (forall v, r <> Ok v) ->
  (forall c2 o2, (0 <= cf_numshards c2)%Z -> exists o3, create_c c2 o2 (Some fs) = (Err EOther, Some fs, o3)) /\
  forall dirs, dirs (cf_root c) = fs ->
    open_indexer_files dirs (cf_root c) = Err EOther /\ forall sorted, open_files sorted dirs (cf_root c) = Err EOther.
Proof.
  intros E _. split.
  - intros c2 o2 Hn. unfold create_c. destruct (call o2) as [[k|] a]; [eexists; reflexivity|]. destruct (call a) as [[k|] b]; [eexists; reflexivity|].
    assert ((cf_numshards c2 <? 0)%Z = false) as -> by (apply Z.ltb_ge; exact Hn). destruct (call b) as [[k|] d]; eexists; reflexivity.
  - assert (W : w_cfg fs = None).
    { unfold create_c in E. destruct (call o) as [[k|] a]; [discriminate|]. destruct (call a) as [[k|] b]; [discriminate|].
      destruct (cf_numshards c <? 0)%Z; [discriminate|]. destruct (call b) as [[k|] d]; [discriminate|].
      destruct (token_from_config (cf_token c)); try (injection E as _ <- _; reflexivity).
      destruct (call d) as [[k|] g]; try (injection E as _ <- _; reflexivity).
      destruct (new_adder None (cf_flush c)); try (injection E as _ <- _; reflexivity).
      destruct (init_shards_c _ g) as [[sh h] ok]. destruct (negb ok); injection E as _ <- _; reflexivity. }
    intros dirs Ed. unfold open_files, open_indexer_files. rewrite Ed, W. split; reflexivity.
Qed.
Print Assumptions C103_create_again_refuted.

(** Two ways to get there: the table of the first shard cannot be opened, and a tokenizer that
    does not exist. *)
Example C103_example : exists fs o', first_failure 4 [None; None; None; None; Some 0%nat] /\
  create_c wit_config [None; None; None; None; Some 0%nat] None = (Err EOther, Some fs, o') /\
  w_shards fs = [(None, None); (None, None)] /\
  (exists o2, create_c wit_config [] (Some fs) = (Err EOther, Some fs, o2)) /\
  open_indexer_files (fun _ => fs) (cf_root wit_config) = Err EOther.
Proof.
  do 2 eexists. split; [exists 0%nat, []; reflexivity|]. split; [reflexivity|]. split; [reflexivity|]. split; [eexists; reflexivity|]. reflexivity.
Qed.
Example C103_example_2 : let c := MkConfig (bs "/r") 10 2 2 16384 (bs "words") default_blot_config in
  (0 <= cf_numshards c)%Z /\ no_failure [] /\ create_indexer c = Err EOther /\
  exists fs o', create_c c [] None = (Err EOther, Some fs, o').
Proof. split; [discriminate|]. split; [constructor|]. split; [reflexivity|]. do 2 eexists. reflexivity. Qed.
(** The hypotheses of the other theorems: *)
Example C103_example_3 : (exists x ws, create_indexer wit_config = Ok (x, ws)) /\ first_failure 1 [None; Some 0%nat] /\
  (3 <= 4 < 4 + Z.to_nat (cf_numshards wit_config) * (2 + List.length iix_create_writes))%nat.
Proof.
  split; [do 2 eexists; reflexivity|]. split; [exists 0%nat, []; reflexivity|]. change (Z.to_nat (cf_numshards wit_config)) with 2%nat. generalize (List.length iix_create_writes). intros. lia.
Qed.
