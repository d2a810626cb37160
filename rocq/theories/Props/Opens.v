(** C102: whether an index that opens for appending opens for reading. *)
From Coq Require Import String Lia.
From Verif Require Import Model.Base Model.Varint Model.Utf8 Model.Token Model.Blotter Model.Post Model.Poster Model.Shatter Model.Shard Model.Dmd Model.Fnames Model.Conc Model.Config Model.Json Model.Run Model.Index Model.Query Model.Session Model.Crash.
From Verif Require Import Spec.Text Spec.Fingerprint Spec.Configs Spec.Paths Spec.Reading Spec.Querying Spec.History Spec.Str Spec.Overlong.
From Verif Require Import Proof.Tactics Proof.TokenP Proof.BlotterP Proof.ShardP Proof.QueryP Proof.QueryW Proof.SessionP Proof.SessionP2 Proof.CrashP Proof.CrashP2 Proof.OpensP.
Local Open Scope N_scope.
Local Open Scope list_scope.

(** C102, as far as it holds: for any files whatever, if OpenIndexer succeeds, the file dmd
    is there and no table of a shard has a number with too many bytes, then OpenIndex
    succeeds. *)
Theorem C102_opens_partial sorted dirs root c x ws :
  Json.read_config (w_cfg (dirs root)) = Ok c ->
  open_indexer_files dirs root = Ok (x, ws) ->
  w_dmd (dirs (cf_root c)) <> None ->
  (forall i iix pos, nth_error (w_shards (dirs (cf_root c))) i = Some (Some iix, Some pos) -> ~ overlong iix) ->
  exists ix, open_files sorted dirs root = Ok ix.
Proof.
  intros Ec E Hd Ho. unfold open_indexer_files in E. unfold open_files. rewrite Ec in *. cbn [bind] in *.
  destruct (cf_numshards c <? 0)%Z; [discriminate|]. destruct (w_dmd (dirs (cf_root c))) as [dm|]; [|contradiction]. cbn [read_some bind].
  destruct (new_adder _ _); cbn [bind] in E; try discriminate.
  destruct (read_some read_fnames _) as [fn| | |]; cbn [bind] in *; try discriminate.
  destruct (token_from_config _); cbn [bind] in E; try discriminate.
  destruct (for_files shard_append _ _) as [xs| | |] eqn:Ef; cbn [bind] in E; try discriminate.
  destruct (files_both sorted _ _ _ Ef) as [[ys ->]|(i & iix & pos & H & Ov)]; [cbn [bind]; eauto|]. exfalso. exact (Ho i iix pos H Ov).
Qed.
Print Assumptions C102_opens_partial.

(** C102 fails without the first condition, for every index: when the file dmd is missing,
    OpenIndexer begins a new one, and OpenIndex fails. *)
Theorem C102_no_dmd_refuted : forall u c k m n, cfg_full c k m n -> cfg_values c ->
  forall ss dk, history u c ss dk -> docs_fit (all_docs ss) ->
  forall dirs, dirs (cf_root c) = files_of (MkDisk (k_cfg dk) None (k_fnames dk) (k_shards dk)) ->
  (exists x ws, open_indexer_files dirs (cf_root c) = Ok (x, ws)) /\
  forall sorted, open_files sorted dirs (cf_root c) = Err EOther.
Proof.
  intros u c k m n F V ss dk Hi Fit dirs Ed. destruct F as [O Hn Hfl] eqn:EF. clear EF. assert (F' : cfg_full c k m n) by (constructor; assumption).
  destruct (words_total u (all_docs ss)) as [wss Ww]. destruct (history_inv u c k m n O Hn Hfl ss dk Hi Fit wss Ww) as (fn & fs & D).
  pose proof (df_len _ Fit) as L. change (2 ^ 32) with 4294967296 in L.
  destruct (open_start u c k m n O Hn Hfl _ _ _ _ _ D ltac:(lia)) as (x & ws & E & _).
  set (dk' := MkDisk (k_cfg dk) None (k_fnames dk) (k_shards dk)) in *.
  assert (Ec : k_cfg dk' = Some c) by exact (di_cfg _ _ _ _ _ _ _ _ _ _ D).
  split.
  - rewrite (proj2 (open_files_of c k m n F' V (fun _ => []) dirs dk' Ed Ec)). unfold open_indexer, read_config in *. unfold dk' in *. cbn [k_cfg k_dmd k_fnames k_shards] in *.
    rewrite Ec, (check_ok c k m n O Hn) in *. cbn [bind] in *. destruct (cf_numshards c <? 0)%Z; [discriminate|].
    unfold new_adder at 1. assert ((cf_flush c <? 1)%Z = false) as -> by (apply Z.ltb_ge; exact Hfl). cbn [bind].
    destruct (new_adder _ _); cbn [bind] in E; try discriminate.
    destruct (read_some read_fnames _) as [fn'| | |]; cbn [bind] in *; try discriminate.
    destruct (token_from_config _); cbn [bind] in *; try discriminate.
    destruct (for_shards shard_append _ _); cbn [bind] in *; try discriminate.
    destruct (start_workers c); cbn [bind] in *; try discriminate. eauto.
  - intros sorted. rewrite (proj1 (open_files_of c k m n F' V sorted dirs dk' Ed Ec)). unfold open_index, read_config. rewrite Ec, (check_ok c k m n O Hn). reflexivity.
Qed.
Print Assumptions C102_no_dmd_refuted.

(** C102 fails without the second condition too, for every index in which the first blot has
    no documents: its entry in the table of the first shard then has the number of documents
    written as one byte 0. With ten bytes there instead, the last of them 2, OpenIndexer does
    exactly what it did before, as it never looks at the error of reading that number, and
    OpenIndex fails. *)
Theorem C102_overlong_refuted : forall u c k m n, cfg_full c k m n -> cfg_values c ->
  forall ss dk wss, history u c ss dk -> docs_fit (all_docs ss) -> words_of (word_char u) (all_docs ss) wss ->
  carriers (word_hash u) k m n 0 wss 0 = [] ->
  exists e1 e2 pos rest, k_shards dk = (e1 ++ 0 :: e2, pos) :: rest /\
  forall dirs, dirs (cf_root c) = files_of (MkDisk (k_cfg dk) (k_dmd dk) (k_fnames dk) ((e1 ++ [128; 128; 128; 128; 128; 128; 128; 128; 128; 2] ++ e2, pos) :: rest)) ->
  (exists x ws, open_indexer_files dirs (cf_root c) = Ok (x, ws) /\ open_indexer dk = Ok (x, ws)) /\
  forall sorted, open_files sorted dirs (cf_root c) = Err EOther.
Proof.
  intros u c k m n F V ss dk wss Hi Fit Ww Hc. pose proof F as F'. destruct F' as [O Hn Hfl].
  destruct (history_inv u c k m n O Hn Hfl ss dk Hi Fit wss Ww) as (fn & fs & D).
  pose proof (df_len _ Fit) as L. change (2 ^ 32) with 4294967296 in L.
  destruct (open_start u c k m n O Hn Hfl _ _ _ _ _ D ltac:(lia)) as (x & ws & E & _).
  pose proof (di_shards _ _ _ _ _ _ _ _ _ _ D) as Ls. pose proof (co_n _ _ _ _ O) as Pn.
  pose proof (di_closed _ _ _ _ _ _ _ _ _ _ D 0%nat) as Cl.
  destruct (k_shards dk) as [|[iix pos] rest] eqn:Es; [cbn [List.length] in Ls; lia|]. specialize (Cl _ eq_refl).
  destruct (first_free _ _ Cl) as (z & r & Hz & Ei).
  { unfold content_of. rewrite posts_carriers; [exact Hc|exact Pn|exact Pn|unfold num_slots; lia| |eapply words_of_small, Ww].
    unfold nlen in *. rewrite (Tactics.Forall2_len _ _ _ Ww) in *. lia. }
  cbn [fst] in Ei. subst iix. exists (put_varint z), r, pos, rest. split; [reflexivity|]. intros dirs Ed.
  set (dk' := MkDisk (k_cfg dk) (k_dmd dk) (k_fnames dk) _) in Ed.
  assert (Ec : k_cfg dk = Some c) by exact (di_cfg _ _ _ _ _ _ _ _ _ _ D). assert (Ec' : k_cfg dk' = Some c) by exact Ec.
  change [128; 128; 128; 128; 128; 128; 128; 128; 128; 2] with long_zero in *.
  destruct (long_zero_shard (put_varint z) r z pos Hz eq_refl) as [Sa So].
  assert (En : exists q, Z.to_nat (cf_numshards c) = S q) by (rewrite (co_shards _ _ _ _ O), Nat2Z.id; destruct n; [lia|eauto]). destruct En as [q En].
  split.
  - rewrite (proj2 (open_files_of c k m n F V (fun _ => []) dirs dk' Ed Ec')). exists x, ws. split; [|exact E]. rewrite <- E.
    unfold open_indexer, read_config, dk'. cbn [k_cfg k_dmd k_fnames k_shards]. rewrite Ec, (check_ok c k m n O Hn), Es. cbn [bind]. rewrite En. cbn [for_shards]. rewrite Sa. reflexivity.
  - intros sorted. rewrite (proj1 (open_files_of c k m n F V sorted dirs dk' Ed Ec')). unfold open_index, read_config, dk'. cbn [k_cfg k_dmd k_fnames k_shards].
    rewrite Ec, (check_ok c k m n O Hn). cbn [bind].
    unfold open_indexer, read_config in E. rewrite Ec, (check_ok c k m n O Hn) in E. cbn [bind] in E.
    destruct (k_dmd dk); cbn [read_some bind] in *; [|reflexivity].
    destruct (cf_numshards c <? 0)%Z; [discriminate|]. destruct (new_adder _ _); cbn [bind] in E; try discriminate.
    destruct (read_some read_fnames _); cbn [bind] in *; try discriminate.
    rewrite En. cbn [for_shards]. rewrite So. reflexivity.
Qed.
Print Assumptions C102_overlong_refuted.

(** The conditions of [C102_opens_partial] are met by an index without documents, and those
    of the other two by an index with five. *)
Example C102_example u sorted : exists dk x ws ix, history u wit_config [[]] dk /\
  Json.read_config (w_cfg (files_of dk)) = Ok wit_config /\
  open_indexer_files (fun _ => files_of dk) (cf_root wit_config) = Ok (x, ws) /\
  w_dmd (files_of dk) <> None /\
  (forall i iix pos, nth_error (w_shards (files_of dk)) i = Some (Some iix, Some pos) -> ~ overlong iix) /\
  open_files sorted (fun _ => files_of dk) (cf_root wit_config) = Ok ix.
Proof.
  assert (V : cfg_values wit_config) by (constructor; try (split; [vm_compute; discriminate|reflexivity]); apply Utf8P.utf8_valid_spec; vm_compute; reflexivity).
  pose proof wit_full as F. destruct wit_full as [O Hn Hfl] eqn:EF.
  assert (Fit : docs_fit (all_docs [[]])) by (constructor; [constructor|vm_compute; reflexivity|vm_compute; reflexivity]).
  destruct (history_exists u wit_config 1 10 2 O Hn Hfl [[]]) as [dk Hi]; [discriminate|reflexivity|exact Fit|].
  destruct (history_inv u wit_config 1 10 2 O Hn Hfl [[]] dk Hi Fit [] ltac:(constructor)) as (fn & fs & D).
  destruct (open_start u wit_config 1 10 2 O Hn Hfl _ _ _ _ _ D ltac:(reflexivity)) as (x & ws & E & _).
  pose proof (di_cfg _ _ _ _ _ _ _ _ _ _ D) as Ec.
  assert (Ej : Json.read_config (w_cfg (files_of dk)) = Ok wit_config).
  { cbn [files_of w_cfg]. rewrite Ec. cbn [option_map]. exact (cfg_back wit_config 1 10 2 F V). }
  assert (E' : open_indexer_files (fun _ => files_of dk) (cf_root wit_config) = Ok (x, ws)).
  { rewrite (proj2 (open_files_of wit_config 1 10 2 F V sorted (fun _ => files_of dk) dk eq_refl Ec)). exact E. }
  assert (Ed : w_dmd (files_of dk) <> None).
  { cbn [files_of w_dmd]. rewrite (di_dmd _ _ _ _ _ _ _ _ _ _ D). discriminate. }
  assert (Ho : forall i iix pos, nth_error (w_shards (files_of dk)) i = Some (Some iix, Some pos) -> ~ overlong iix).
  { cbn [files_of w_shards]. intros i iix pos Hf. rewrite nth_error_map in Hf. destruct (nth_error (k_shards dk) i) as [f|] eqn:Ef; [|discriminate].
    injection Hf as Hf _. pose proof (di_closed _ _ _ _ _ _ _ _ _ _ D i f Ef) as Cl. subst iix. exact (empty_table f _ Cl (fun _ => eq_refl)). }
  destruct (C102_opens_partial sorted (fun _ => files_of dk) (cf_root wit_config) wit_config x ws Ej E' Ed Ho) as [ix Ei].
  exists dk, x, ws, ix. repeat (split; [assumption|]). assumption.
Qed.

Example C102_example_2 u : exists dk, history u wit_config [wit_docs] dk /\
  carriers (word_hash u) 1 10 2 0 wit_wss 0 = [] /\
  (forall dirs, dirs (cf_root wit_config) = files_of (MkDisk (k_cfg dk) None (k_fnames dk) (k_shards dk)) ->
     (exists x ws, open_indexer_files dirs (cf_root wit_config) = Ok (x, ws)) /\ forall sorted, open_files sorted dirs (cf_root wit_config) = Err EOther) /\
  exists e1 e2 pos rest, k_shards dk = (e1 ++ 0 :: e2, pos) :: rest /\
  forall dirs, dirs (cf_root wit_config) = files_of (MkDisk (k_cfg dk) (k_dmd dk) (k_fnames dk) ((e1 ++ [128; 128; 128; 128; 128; 128; 128; 128; 128; 2] ++ e2, pos) :: rest)) ->
    (exists x ws, open_indexer_files dirs (cf_root wit_config) = Ok (x, ws)) /\ forall sorted, open_files sorted dirs (cf_root wit_config) = Err EOther.
Proof.
  assert (V : cfg_values wit_config) by (constructor; try (split; [vm_compute; discriminate|reflexivity]); apply Utf8P.utf8_valid_spec; vm_compute; reflexivity).
  pose proof wit_full as F. destruct wit_full as [O Hn Hfl] eqn:EF.
  destruct (history_exists u wit_config 1 10 2 O Hn Hfl [wit_docs]) as [dk Hi]; [discriminate|reflexivity|exact wit_fit|].
  assert (C0 : carriers (word_hash u) 1 10 2 0 wit_wss 0 = []) by (rewrite wit_carriers; reflexivity).
  exists dk. split; [exact Hi|]. split; [exact C0|]. split; [exact (C102_no_dmd_refuted u wit_config 1 10 2 F V [wit_docs] dk Hi wit_fit)|].
  destruct (C102_overlong_refuted u wit_config 1 10 2 F V [wit_docs] dk wit_wss Hi wit_fit (wit_words u) C0) as (e1 & e2 & pos & rest & Es & X).
  exists e1, e2, pos, rest. split; [exact Es|]. intros dirs Ed. destruct (X dirs Ed) as [(x & ws & A & _) B]. split; [eauto|exact B].
Qed.
