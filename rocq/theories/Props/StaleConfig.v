(** C104: a session works with the configuration of the index it opens. *)
From Coq Require Import String.
From Verif Require Import Model.Base Model.Varint Model.Utf8 Model.Token Model.Blotter Model.Post Model.Poster Model.Shatter Model.Shard Model.Dmd Model.Fnames Model.Conc Model.Config Model.Json Model.Run Model.Index Model.Query Model.Session Model.Crash Model.StaleConfig.
From Verif Require Import Spec.Text Spec.Fingerprint Spec.Configs Spec.Paths Spec.Reading Spec.Querying Spec.History Spec.Str.
From Verif Require Import Proof.Tactics Proof.TokenP Proof.BlotterP Proof.PosterP Proof.ShardP Proof.QueryP Proof.QueryW Proof.JsonP Proof.ConfigP Proof.RootP Proof.SessionP Proof.SessionP2 Proof.CrashP Proof.CrashP2 Proof.DocidP Proof.StaleP2 Proof.StaleConfigP.
From Coq Require Import Lia.
Local Open Scope N_scope.
Local Open Scope list_scope.

(** Opening is reading the configuration and, later, all the rest. If the index is still
    the one of the configuration that was read, however many sessions others have appended
    in between, then the session is one more session of its history. *)
Theorem C104_still_there_partial : forall u c k m n, cfg_full c k m n ->
  (forall dirs root, open_indexer_files dirs root = do! c <- Json.read_config (w_cfg (dirs root)); open_from_config c (dirs (cf_root c))) /\
  forall ss dk, history u c ss dk ->
    open_from_config c (files_of dk) = open_indexer dk /\
    forall docs dk', session u (open_from_config c (files_of dk)) docs dk' -> history u c (docs :: ss) dk'.
Proof.
  intros u c k m n F. split; [intros; apply open_in_two|]. intros ss dk Hi. destruct F as [O Hn Hfl].
  assert (E : open_from_config c (files_of dk) = open_indexer dk).
  { pose proof (RootP.history_cfg _ _ _ _ Hi) as Ec. unfold open_from_config, open_indexer, read_config. rewrite Ec, (check_ok c k m n O Hn). cbn [bind]. unfold files_of. cbn [w_dmd w_fnames w_shards].
    change (map (fun p : bytes * bytes => (Some (fst p), Some (snd p))) (k_shards dk)) with (map some_pair (k_shards dk)). rewrite for_files_some. reflexivity. }
  split; [exact E|]. intros docs dk' Sn. rewrite E in Sn. eapply history_append; eauto.
Qed.

Lemma shards_missing {A} (f : bytes -> bytes -> result A) fs : forall n2 n xs, List.length fs = n2 -> (n2 < n)%nat -> for_shards f n2 fs = Ok xs -> for_shards f n fs = Err EOther.
Proof.
  induction fs as [|[iix pos] fs IH]; intros n2 n xs L Lt Ex; cbn [List.length] in L; subst n2.
  - destruct n; [lia|reflexivity].
  - destruct n as [|n]; [lia|]. cbn [for_shards] in *. destruct (f iix pos) as [x| | |]; cbn [bind] in *; try discriminate.
    destruct (for_shards f (List.length fs) fs) as [xs'| | |] eqn:E; cbn [bind] in *; try discriminate. rewrite (IH (List.length fs) n xs' eq_refl ltac:(lia) E). reflexivity.
Qed.
(** If it has been replaced by one of fewer shards, opening fails. *)
Theorem C104_fewer_shards : forall u c c2 k m n n2, cfg_full c k m n -> cfg_full c2 k m n2 -> (n2 < n)%nat ->
  cf_flush c2 = cf_flush c ->
  forall ss dk, history u c2 ss dk -> docs_fit (all_docs ss) -> nlen (all_docs ss) < 2 ^ 32 - 1 -> open_from_config c (files_of dk) = Err EOther.
Proof.
  intros u c c2 k m n n2 F F2 Lt Sfl ss dk Hi Fit Ld. destruct F as [O Hn Hfl], F2 as [O2 Hn2 Hfl2].
  destruct (words_total u (all_docs ss)) as [wss W]. destruct (history_inv u c2 k m n2 O2 Hn2 Hfl2 ss dk Hi Fit wss W) as (fn0 & fs0 & D).
  change (2 ^ 32) with 4294967296 in Ld. destruct (open_start u c2 k m n2 O2 Hn2 Hfl2 _ _ _ _ _ D ltac:(lia)) as (x2 & wk & E2 & I2).
  unfold open_from_config. unfold open_indexer, read_config in E2. rewrite (di_cfg _ _ _ _ _ _ _ _ _ _ D), (check_ok c2 k m n2 O2 Hn2) in E2. cbn [bind] in E2.
  assert (X : (cf_numshards c <? 0)%Z = false) by (rewrite (co_shards _ _ _ _ O); apply Z.ltb_ge; lia). rewrite X. clear X.
  destruct (cf_numshards c2 <? 0)%Z; [discriminate|]. rewrite Sfl in E2. unfold files_of. cbn [w_dmd w_fnames w_shards]. destruct (new_adder _ _) as [a| | |]; cbn [bind] in *; try discriminate.
  destruct (read_some _ _) as [f| | |]; cbn [bind] in *; try discriminate. rewrite (co_token _ _ _ _ O2) in E2. rewrite (co_token _ _ _ _ O).
  destruct (token_from_config _) as [t| | |]; cbn [bind] in *; try discriminate.
  change (map (fun p : bytes * bytes => (Some (fst p), Some (snd p))) (k_shards dk)) with (map some_pair (k_shards dk)). rewrite for_files_some.
  assert (E : for_shards shard_append (Z.to_nat (cf_numshards c)) (k_shards dk) = Err EOther); [|rewrite E; reflexivity].
  rewrite (co_shards _ _ _ _ O), Nat2Z.id. rewrite (co_shards _ _ _ _ O2), Nat2Z.id in E2. pose proof (di_shards _ _ _ _ _ _ _ _ _ _ D) as L.
  destruct (for_shards shard_append n2 (k_shards dk)) as [xs| | |] eqn:Ex; cbn [bind] in E2; try discriminate. exact (shards_missing _ _ _ _ _ L Lt Ex).
Qed.

(** If it has been replaced by one of more shards, in all else alike, then the session goes
    well and writes the old configuration over the new one. From then on a query for a blot
    tells the documents of the session that have it modulo [n] times 65536, and in place of
    the earlier ones that have it, those that have another one. *)
Theorem C104_more_shards : forall u c c2 k m n n2, cfg_full c k m n -> cfg_full c2 k m n2 -> (n < n2)%nat ->
  cfg_values c -> cf_root c2 = cf_root c -> cf_flush c2 = cf_flush c -> cf_numshatters c2 = cf_numshatters c ->
  (List.length (marshal c2) <= List.length (marshal c))%nat -> (0 < cf_numshatters c)%Z ->
  forall ss dk docs wss w, history u c2 ss dk -> docs_fit (all_docs ss ++ docs) ->
  words_of (word_char u) (all_docs ss) wss -> words_of (word_char u) docs w ->
  (exists dk', session u (open_from_config c (files_of dk)) docs dk') /\
  forall dk', session u (open_from_config c (files_of dk)) docs dk' ->
    forall sorted dirs, sorts sorted -> dirs (cf_root c) = files_over (files_of dk) dk' ->
    exists ix, open_files sorted dirs (cf_root c) = Ok ix /\ forall grow fuel blot, (List.length (all_docs ss ++ docs) < fuel)%nat ->
      let b := blot mod (N.of_nat n * 65536) in
      exists ds, query_get grow ix fuel blot None = Ok ds /\
        docs_keys ds = map (place_of (all_docs ss ++ docs))
          (carriers (word_hash u) k m n2 0 wss (b / N.of_nat n * N.of_nat n2 + b mod N.of_nat n) ++ carriers (word_hash u) k m n (nlen wss) w b).
Proof.
  intros u c c2 k m n n2 F F2 Lt V Sr Sfl Ssh Lm Hsh ss dk docs wss w Hi Fit W0 W1.
  destruct (stale_config u c c2 k m n n2 F F2 Lt Sfl Ssh ss dk docs wss w Hi Fit Hsh W0 W1) as [Ex X]. split; [exact Ex|].
  intros dk' Sn sorted dirs Hs Ed. destruct (X dk' Sn) as (Ec & Ls & Y). destruct (Y sorted Hs) as (ix & Eo & Q). exists ix. split; [|exact Q].
  rewrite <- Eo. pose proof F as [O Hn Hfl]. unfold open_files, open_index, read_config. rewrite Ed, Ec. unfold files_over at 1. cbn [w_cfg]. rewrite Ec. cbn [option_map].
  rewrite (proj2 (read_back_short c (w_cfg (files_of dk)) V (full_consistent c k m n F) ltac:(
    unfold files_of; cbn [w_cfg]; rewrite (RootP.history_cfg _ _ _ _ Hi); cbn [option_map content]; rewrite write_is; cbn [content]; rewrite skipn_nil, app_length; cbn [List.length]; lia))).
  rewrite (check_ok c k m n O Hn). cbn [bind]. rewrite Ed. unfold files_over. cbn [w_dmd w_fnames w_shards].
  destruct (read_some Ok _) as [g| | |]; cbn [bind]; try reflexivity. destruct (read_some read_fnames _) as [f| | |]; cbn [bind]; try reflexivity.
  destruct (cf_numshards c <? 0)%Z; [reflexivity|]. assert (En : Z.to_nat (cf_numshards c) = n) by (rewrite (co_shards _ _ _ _ O); apply Nat2Z.id). rewrite En.
  change (map (fun p : bytes * bytes => (Some (fst p), Some (snd p))) (k_shards dk')) with (map some_pair (k_shards dk')).
  rewrite for_files_app, for_files_some; [reflexivity|]. rewrite map_length. exact Ls.
Qed.

(** So the answers are wrong: here an index of one shard has been replaced by one of two,
    and a sixth document is appended by a session that has read the configuration of the
    first. The query for the blot of a text, which documents 1, 2, 3 and 6 have, tells 6
    alone; and the query for a blot that no document has tells documents 1, 2 and 3. *)
Definition one_shard : config := MkConfig (bs "/x") 10 1 2 16384 words_simple default_blot_config.
Definition the_blot : N := Eval vm_compute in xors (map fnv32 (tl wit_words1)).
Definition other_blot : N := Eval vm_compute in wit_blot1 / 2.
Lemma one_full : cfg_full one_shard 1 10 1.
Proof. constructor; [constructor; try reflexivity; lia|reflexivity|cbn; lia]. Qed.
Lemma one_has u q : has_blot (word_hash u) 1 10 1 wit_words1 q = (the_blot mod 65536 =? q) /\ has_blot (word_hash u) 1 10 1 wit_words2 q = (xors (map fnv32 (tl wit_words2)) mod 65536 =? q).
Proof.
  split; unfold has_blot.
  - assert (E : map (fun b => b mod (N.of_nat 1 * 65536)) (spec_blots (word_hash u) 1 10 wit_words1) = [the_blot mod 65536]) by (vm_compute; reflexivity).
    destruct (spec_blots (word_hash u) 1 10 wit_words1) as [|b [|? ?]]; try discriminate. cbn [map existsb] in *.
    assert (b mod (N.of_nat 1 * 65536) = the_blot mod 65536) as -> by congruence. apply orb_false_r.
  - assert (E : map (fun b => b mod (N.of_nat 1 * 65536)) (spec_blots (word_hash u) 1 10 wit_words2) = [xors (map fnv32 (tl wit_words2)) mod 65536]) by (vm_compute; reflexivity).
    destruct (spec_blots (word_hash u) 1 10 wit_words2) as [|b [|? ?]]; try discriminate. cbn [map existsb] in *.
    assert (b mod (N.of_nat 1 * 65536) = xors (map fnv32 (tl wit_words2)) mod 65536) as -> by congruence. apply orb_false_r.
Qed.
Theorem C104_replaced_refuted : forall u sorted, sorts sorted -> exists dk dk' dirs ix,
  cf_root one_shard = cf_root wit_config /\ history u wit_config [wit_docs] dk /\
  session u (open_from_config one_shard (files_of dk)) [wit_doc "6" wit_text1] dk' /\
  dirs (cf_root one_shard) = files_over (files_of dk) dk' /\ open_files sorted dirs (cf_root one_shard) = Ok ix /\
  words_of (word_char u) (wit_docs ++ [wit_doc "6" wit_text1]) (wit_wss ++ [wit_words1]) /\
  spec_blots (word_hash u) 1 10 wit_words1 = [the_blot] /\
  carriers (word_hash u) 1 10 1 0 (wit_wss ++ [wit_words1]) (the_blot mod 65536) = [1; 2; 3; 6] /\
  carriers (word_hash u) 1 10 1 0 (wit_wss ++ [wit_words1]) (other_blot mod 65536) = [] /\
  forall grow fuel, (6 < fuel)%nat ->
    (exists ds, query_get grow ix fuel the_blot None = Ok ds /\ docs_keys ds = map (place_of (wit_docs ++ [wit_doc "6" wit_text1])) [6]) /\
    (exists ds, query_get grow ix fuel other_blot None = Ok ds /\ docs_keys ds = map (place_of (wit_docs ++ [wit_doc "6" wit_text1])) [1; 2; 3]).
Proof.
  intros u sorted Hs. pose proof wit_full as F2. destruct F2 as [O2 Hn2 Hfl2] eqn:EF.
  destruct (history_exists u wit_config 1 10 2 O2 Hn2 Hfl2 [wit_docs]) as [dk Hi]; [discriminate|reflexivity|exact wit_fit|].
  assert (Fit : docs_fit (all_docs [wit_docs] ++ [wit_doc "6" wit_text1])).
  { constructor; [|vm_compute; reflexivity|vm_compute; reflexivity].
    rewrite all_docs_one. apply Forall_app. split; [apply wit_fit|]. repeat (constructor; [split; [exists []; reflexivity|split; vm_compute; reflexivity]|]). constructor. }
  assert (W1 : words_of (word_char u) [wit_doc "6" wit_text1] [wit_words1]).
  { pose proof (wit_words u) as W. unfold wit_docs, wit_wss in W. inversion W as [|? ? ? ? A1 _]; subst. constructor; [exact A1|constructor]. }
  destruct (C104_more_shards u one_shard wit_config 1 10 1 2 one_full wit_full ltac:(lia)
    ltac:(constructor; try (split; [vm_compute; discriminate|reflexivity]); apply Utf8P.utf8_valid_spec; vm_compute; reflexivity) eq_refl eq_refl eq_refl
    ltac:(apply Nat.leb_le; vm_compute; reflexivity) ltac:(reflexivity) [wit_docs] dk [wit_doc "6" wit_text1] wit_wss [wit_words1] Hi Fit (wit_words u) W1) as ((dk' & Sn) & X).
  set (dirs := fun _ : bytes => files_over (files_of dk) dk'). destruct (X dk' Sn sorted dirs Hs eq_refl) as (ix & Eo & Q).
  exists dk, dk', dirs, ix. split; [reflexivity|]. split; [exact Hi|]. split; [exact Sn|]. split; [reflexivity|]. split; [exact Eo|].
  split; [apply Forall2_app; [apply wit_words|exact W1]|]. split; [vm_compute; reflexivity|].
  assert (H1 : forall q, has_blot (word_hash u) 1 10 1 wit_words1 q = (the_blot mod 65536 =? q)) by (intros q; exact (proj1 (one_has u q))).
  assert (H2 : forall q, has_blot (word_hash u) 1 10 1 wit_words2 q = (xors (map fnv32 (tl wit_words2)) mod 65536 =? q)) by (intros q; exact (proj2 (one_has u q))).
  split. { unfold wit_wss. cbn [app carriers]. rewrite !H1, !H2. vm_compute. reflexivity. }
  split. { unfold wit_wss. cbn [app carriers]. rewrite !H1, !H2. vm_compute. reflexivity. }
  intros grow fuel Lf. split.
  - destruct (Q grow fuel the_blot Lf) as (ds & E & K). exists ds. split; [exact E|]. rewrite K. change (all_docs [wit_docs]) with wit_docs. apply f_equal. change (N.of_nat 1 * 65536) with 65536. rewrite wit_carriers. cbn [carriers]. rewrite H1. vm_compute. reflexivity.
  - destruct (Q grow fuel other_blot Lf) as (ds & E & K). exists ds. split; [exact E|]. rewrite K. change (all_docs [wit_docs]) with wit_docs. apply f_equal. change (N.of_nat 1 * 65536) with 65536. rewrite wit_carriers. cbn [carriers]. rewrite H1. vm_compute. reflexivity.
Qed.

(** An index of one shard, and sessions that have read a configuration of two. *)
Example C104_example u : exists dk, history u one_shard [wit_docs] dk /\ docs_fit (all_docs [wit_docs]) /\ cfg_full one_shard 1 10 1 /\ cfg_full wit_config 1 10 2 /\
  cf_flush one_shard = cf_flush wit_config /\ nlen (all_docs [wit_docs]) < 2 ^ 32 - 1 /\ open_from_config wit_config (files_of dk) = Err EOther /\
  exists dk', session u (open_from_config one_shard (files_of dk)) [] dk' /\ history u one_shard [[]; wit_docs] dk'.
Proof.
  pose proof one_full as [O Hn Hfl]. destruct (history_exists u one_shard 1 10 1 O Hn Hfl [wit_docs]) as [dk Hi]; [discriminate|reflexivity|exact wit_fit|].
  exists dk. split; [exact Hi|]. split; [exact wit_fit|]. split; [exact one_full|]. split; [exact wit_full|]. split; [reflexivity|]. assert (L : nlen (all_docs [wit_docs]) < 2 ^ 32 - 1) by (vm_compute; reflexivity). split; [exact L|].
  split; [exact (C104_fewer_shards u wit_config one_shard 1 10 2 1 wit_full one_full ltac:(lia) eq_refl [wit_docs] dk Hi wit_fit L)|].
  destruct (proj2 (C104_still_there_partial u one_shard 1 10 1 one_full) _ _ Hi) as [E X].
  destruct (words_total u (all_docs [wit_docs])) as [wss W]. destruct (history_inv u one_shard 1 10 1 O Hn Hfl [wit_docs] dk Hi wit_fit wss W) as (fn0 & fs0 & D).
  destruct (open_start u one_shard 1 10 1 O Hn Hfl _ _ _ _ _ D ltac:(vm_compute; reflexivity)) as (x2 & wk & E2 & I2).
  destruct (session_inv u one_shard 1 10 1 O Hn _ x2 wk _ _ _ [] [] E2 I2) as (_ & Xs & _); [rewrite app_nil_r; exact wit_fit|exact W|constructor|].
  destruct (Xs ltac:(reflexivity)) as (dk' & Sn). exists dk'. rewrite <- E in Sn. split; [exact Sn|apply X, Sn].
Qed.

Print Assumptions C104_still_there_partial.
Print Assumptions C104_fewer_shards.
Print Assumptions C104_more_shards.
Print Assumptions C104_replaced_refuted.
