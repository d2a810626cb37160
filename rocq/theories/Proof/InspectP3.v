(** What inspect prints of an index made by sessions. *)
From Coq Require Import String QArith Qabs.
From Verif Require Import Model.Base Model.Utf8 Model.Token Model.Blotter Model.Conc Model.Run Model.Dmd Model.Shard Model.Config Model.Index Model.Query Model.Session Model.Float Model.Stats Model.Json Model.Root Model.Options Model.Inspect.
From Verif Require Import Spec.Text Spec.Fingerprint Spec.Paths Spec.Configs Spec.Reading Spec.Querying Spec.History Spec.Str Spec.Mean Spec.Printed Spec.Double Spec.Inspected.
From Verif Require Import Proof.Tactics Proof.TokenP Proof.BlotterP Proof.ShatterP Proof.QueryP Proof.QueryW Proof.SessionP Proof.SessionP2 Proof.StatsP3 Proof.StatsP4 Proof.OptionsP Proof.JsonP Proof.ConfigP Proof.InspectP2.
From Verif Require Import Proof.FnamesP.
Local Open Scope N_scope.
Local Open Scope list_scope.

Lemma stats_small u c k m n sorted : cfg_full c k m n -> sorts sorted ->
  forall ss dk wss, history u c ss dk -> docs_fit (all_docs ss) -> words_of (word_char u) (all_docs ss) wss ->
  forall ix, open_index sorted dk = Ok ix ->
  index_stats ix = MkStats (1 + nlen (all_docs ss)) (nlen (tree_nodes (all_docs ss))) (pairs (word_hash u) k m n wss) (N.of_nat n * 65536) /\
  ix_cfg ix = c /\ 1 + nlen (all_docs ss) < 2 ^ 64 /\ nlen (tree_nodes (all_docs ss)) < 2 ^ 64 /\ pairs (word_hash u) k m n wss < 2 ^ 64 /\ N.of_nat n * 65536 < 2 ^ 64.
Proof.
  intros F Hs ss dk wss Hi Fit Ww ix E.
  destruct (stats_count u c k m n sorted F Hs ss dk wss Hi Fit Ww) as (ix' & E' & St). rewrite E in E'. injection E' as <-. split; [exact St|].
  destruct F as [Ok_ Hn Hf]. destruct (history_inv u c k m n Ok_ Hn Hf ss dk Hi Fit wss Ww) as (fn & fs & D).
  destruct (open_index_ok u c k m n Ok_ Hn sorted Hs _ wss fn fs dk D Ww Fit) as (ix' & E' & I & Ec & Ed & Wf & Sk & Lc). rewrite E in E'. injection E' as <-.
  split; [exact Ec|]. pose proof (df_len _ Fit) as L1. pose proof (df_room _ Fit) as L2. pose proof (di_room _ _ _ _ _ _ _ _ _ _ D) as Rm.
  assert (Ef : nlen (ix_fnames ix) = nlen fn) by (unfold nlen; rewrite <- (skel_length (ix_fnames ix)), Sk, skel_length; reflexivity).
  unfold index_stats in St. injection St as S1 S2 S3 S4. change (2 ^ 32) with 4294967296 in *. change (2 ^ 64) with 18446744073709551616.
  split; [lia|]. split; [rewrite <- S2; lia|]. split; [|rewrite <- S4; apply N.mod_lt; lia].
  rewrite <- S3. clear. generalize (ix_shards ix). intros l. assert (G : forall t, t < 18446744073709551616 -> fold_left (fun t s => u64 (t + shard_num_posts s)) l t < 18446744073709551616).
  { induction l as [|s l IH]; intros t Lt; [exact Lt|]. cbn [fold_left]. apply IH. apply N.mod_lt. lia. }
  apply G. lia.
Qed.
Lemma mean_double ix x : blot_mean ix = Fin x -> double x.
Proof. intros E. eapply fdiv_double. exact E. Qed.
Lemma sigma_double fuse ix x : blot_sigma fuse ix = Fin x -> double x.
Proof. intros E. eapply fsqrt_double; [|exact E]. intros y Y. eapply fdiv_double. exact Y. Qed.

Lemma inspect_plain_ok fuse ix d n p b mean sigma : index_stats ix = MkStats d n p b -> d < 2 ^ 64 -> n < 2 ^ 64 -> p < 2 ^ 64 -> b < 2 ^ 64 ->
  blot_mean ix = Fin mean -> blot_sigma fuse ix = Fin sigma -> (0 <= mean)%Q -> (0 <= sigma)%Q ->
  exists t, inspect fuse false ix = (t, 0) /\ shows_stats (cf_root (ix_cfg ix)) d n p b mean sigma t.
Proof.
  intros St Ld Ln Lp Lb Em Es M0 S0. eexists. split; [reflexivity|].
  exists (print_u64 d), (print_u64 n), (print_u64 p), (print_u64 b), (print_2f (Fin mean)), (print_2f (Fin sigma)).
  do 4 (split; [apply u64_reads; assumption|]). split; [apply print_2f_ok; [exact M0|exact (mean_double _ _ Em)]|]. split; [apply print_2f_ok; [exact S0|exact (sigma_double _ _ _ Es)]|].
  unfold inspect_plain. rewrite St, Em, Es. cbv zeta. cbn [st_docs st_paths st_posts st_blots]. unfold bs. reflexivity.
Qed.
Lemma reads_parse pr v : too_deep v = false -> JsonP.reads_as pr v -> json_parse pr = Some v.
Proof.
  intros Sh [(c & t & E & Sp) R]. unfold json_parse. rewrite E at 2. rewrite skip_none by exact Sp. rewrite <- E.
  rewrite <- (app_nil_r pr) at 2. rewrite R; [cbn [skip_space]; rewrite Sh; reflexivity|lia|reflexivity].
Qed.
Lemma inspect_json_ok fuse ix d n p b mean sigma rs : index_stats ix = MkStats d n p b -> d < 2 ^ 64 -> n < 2 ^ 64 -> p < 2 ^ 64 -> b < 2 ^ 64 ->
  blot_mean ix = Fin mean -> blot_sigma fuse ix = Fin sigma -> (0 <= mean)%Q -> (0 <= sigma)%Q -> is_text (cf_root (ix_cfg ix)) rs ->
  exists t v, inspect fuse true ix = (t, 0) /\ json_parse t = Some v /\ value_stats (cf_root (ix_cfg ix)) d n p b mean sigma v.
Proof.
  intros St Ld Ln Lp Lb Em Es M0 S0 Tx.
  destruct (json_float_ok mean (mean_double _ _ Em) M0) as (tm & Etm & Rm & Xm). destruct (json_float_ok sigma (sigma_double _ _ _ Es) S0) as (ts & Ets & Rs & Xs).
  unfold inspect, inspect_json. rewrite St, Em, Es, Etm, Ets. cbn [st_docs st_paths st_posts st_blots]. 
  eexists _, (JObj [(bs "Root", JStr (cf_root (ix_cfg ix))); (bs "NumDocs", JNum (print_u64 d)); (bs "NumPaths", JNum (print_u64 n));
    (bs "NumPosts", JNum (print_u64 p)); (bs "NumBlots", JNum (print_u64 b)); (bs "BlotMean", JNum tm); (bs "BlotSigma", JNum ts)]).
  split; [reflexivity|]. split.
  - apply reads_parse; [reflexivity|]. apply object_reads; [|discriminate]. repeat (apply Forall2_cons || apply Forall2_nil); (apply field_intro; [reflexivity|]).
    1: exact (string_reads _ rs Tx). all: try (apply u64_reads; assumption); assumption.
  - exists (print_u64 d), (print_u64 n), (print_u64 p), (print_u64 b), tm, ts. do 4 (split; [apply u64_reads; assumption|]). auto.
Qed.

(** Without shards. *)
Lemma inspect_no_shards fuse ix : ix_shards ix = [] -> inspect fuse true ix = ([], 1) /\ inspect fuse false ix = (inspect_plain fuse ix, 0) /\
  exists a, inspect_plain fuse ix = a ++ bs "NaN" ++ bs " sigma (std deviation)" ++ [10].
Proof.
  intros E. assert (Em : blot_mean ix = NaN) by (unfold blot_mean, index_stats; rewrite E; reflexivity).
  assert (Es : blot_sigma fuse ix = NaN) by (unfold blot_sigma, index_stats; rewrite E; reflexivity).
  split; [unfold inspect, inspect_json; rewrite Em; reflexivity|]. split; [reflexivity|].
  unfold inspect_plain. rewrite Es. cbv zeta. eexists. rewrite !app_assoc. reflexivity.
Qed.

