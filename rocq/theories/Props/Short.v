(** C75: an index whose files have been cut short. *)
From Coq Require Import String Sorting.Sorted.
From Verif Require Import Model.Base Model.Utf8 Model.Token Model.Blotter Model.Post Model.Poster Model.Shatter Model.Shard Model.Dmd Model.Fnames Model.Conc Model.Config Model.Json Model.Run Model.Index Model.Query Model.Session Model.Crash Model.Extract.
From Verif Require Import Spec.Text Spec.Fingerprint Spec.Configs Spec.Paths Spec.Reading Spec.Querying Spec.History Spec.Str Spec.Printed Spec.Shortened.
From Verif Require Import Proof.Tactics Proof.TokenP Proof.BlotterP Proof.ShardP Proof.QueryP Proof.QueryW Proof.SortP Proof.SessionP Proof.SessionP2 Proof.CrashP Proof.CrashP2 Proof.RootP Proof.OutputP Proof.OutputP2 Proof.ShortP.
From Verif Require Import Props.Query.
Local Open Scope N_scope.
Local Open Scope list_scope.

(** C75: "An index with files that have been cut short, or with files that are missing, is
    never answered wrongly: opening it is an error, or else a query gives all the documents of
    its blot or an error, and extract prints all the frequent blots or ends with an error."

    [shortened]: each file by itself has lost any number of bytes at its end, or is gone. *)
Section Histories.
  Variables (u : unicode) (c : config) (k m n : nat) (sorted : list N -> list nat).
  Hypothesis F : cfg_full c k m n.
  Hypothesis V : cfg_values c.
  Hypothesis S : sorts sorted.
  Variables (ss : list (list (bytes * doc))) (dk : disk) (wss : list (list bytes)).
  Hypothesis Hi : history u c ss dk.
  Hypothesis Fit : docs_fit (all_docs ss).
  Hypothesis Ww : words_of (word_char u) (all_docs ss) wss.
  Notation having := (carriers (word_hash u) k m n 0 wss).
  Section Cut.
  Variables (fs : files) (dirs : bytes -> files).
  Hypothesis Cut : shortened (files_of dk) fs.
  Hypothesis Fs : dirs (cf_root c) = fs.

  Lemma opened_short : exists ix, open_index sorted dk = Ok ix /\
    ((exists e, open_files sorted dirs (cf_root c) = Err e) \/
     exists ix' d t, open_files sorted dirs (cf_root c) = Ok ix' /\ w_dmd fs = Some d /\ k_dmd dk = Some (d ++ t) /\ ix_dmd ix' = d /\ cut_index t ix ix').
  Proof.
    destruct (opened u c k m n sorted F S ss dk wss Hi Fit Ww) as (ix & E & I). exists ix. split; [exact E|].
    pose proof (history_cfg u c ss dk Hi) as Kc. apply (open_shortened sorted c dk fs ix dirs V (full_consistent c k m n F) E); auto.
    apply open_index_cfg in E. congruence.
  Qed.

  (** A query of a blot, without and with a limit. *)
  Theorem C75_get : (exists e, open_files sorted dirs (cf_root c) = Err e) \/
    exists ix, open_files sorted dirs (cf_root c) = Ok ix /\ forall grow blot fuel, (List.length (all_docs ss) < fuel)%nat ->
    ((exists e, query_get grow ix fuel blot None = Err e) \/
     exists ds, query_get grow ix fuel blot None = Ok ds /\ docs_keys ds = map (place_of (all_docs ss)) (having (blot mod (N.of_nat n * 65536)))) /\
    (forall back, blot < N.of_nat n * 65536 ->
     (exists e, query_get grow ix fuel blot (Some (0%nat, back)) = Err e) \/
     exists ds, query_get grow ix fuel blot (Some (0%nat, back)) = Ok ds /\
       docs_keys ds = map (place_of (all_docs ss)) (firstn (List.length back) (having blot))).
  Proof.
    destruct opened_short as (ix & E & [X|(ix' & d & t & E' & _ & _ & _ & C)]); [left; exact X|right].
    exists ix'. split; [exact E'|]. intros grow blot fuel Lf. split.
    - destruct (query_exact u c k m n sorted F S ss dk wss Hi Fit Ww) as (ix2 & E2 & Q). assert (ix2 = ix) as -> by congruence.
      destruct (query_get_cut grow t ix ix' C fuel blot None) as [->|[->|[_ ->]]]; [right|left; eauto|left; eauto]. exact (Q grow blot fuel Lf).
    - intros back Lb. destruct (C27_histories u c k m n sorted F S ss dk wss Hi Fit Ww) as (ix2 & E2 & Q). assert (ix2 = ix) as -> by congruence.
      destruct (query_get_cut grow t ix ix' C fuel blot (Some (0%nat, back))) as [->|[->|[_ ->]]]; [right|left; eauto|left; eauto].
      destruct (Q grow blot 0%nat back fuel Lb ltac:(lia) Lf) as (back' & Eg & _ & _ & K). eexists. split; [exact Eg|].
      rewrite K, Nat.sub_0_r. reflexivity.
  Qed.
  (** Every call of Next, from the start: what it should return, or an error. *)
  Theorem C75_next : (exists e, open_files sorted dirs (cf_root c) = Err e) \/
    exists ix ix', open_index sorted dk = Ok ix /\ open_files sorted dirs (cf_root c) = Ok ix' /\ start_query ix' = start_query ix /\
    forall grow fuel rounds q dst, query_next grow ix' fuel rounds q dst = query_next grow ix fuel rounds q dst \/ exists e, query_next grow ix' fuel rounds q dst = Err e.
  Proof.
    destruct opened_short as (ix & E & [X|(ix' & d & t & E' & _ & _ & _ & C)]); [left; exact X|right].
    exists ix, ix'. split; [exact E|]. split; [exact E'|]. split; [exact (start_cut t ix ix' C)|]. intros grow fuel rounds q dst.
    destruct (query_next_cut grow t ix ix' C fuel rounds q dst) as [->|[->|[_ ->]]]; eauto.
  Qed.
  (** extract. Missing: when the table of documents itself is shorter, it can end without an
      error before all is printed. *)
  Theorem C75_extract_partial : (exists e, open_files sorted dirs (cf_root c) = Err e) \/
    exists ix, open_files sorted dirs (cf_root c) = Ok ix /\
    forall grow fuel, (List.length (all_docs ss) < fuel)%nat -> forall json T, exists rounds calls out rest e,
      extract_steps grow ix json T fuel rounds calls (start_query ix) 0 = (out, e) /\
      frequent (word_hash u) k m n (all_docs ss) wss T (map (fun e => (be_blot e, docs_keys (be_docs e))) (out ++ rest)) /\
      (e = Ok tt \/ e = Err EOther) /\
      (w_dmd fs = k_dmd dk -> e = Ok tt -> rest = []).
  Proof.
    destruct opened_short as (ix & E & [X|(ix' & d & t & E' & Wd & Kd & _ & C)]); [left; exact X|right].
    exists ix'. split; [exact E'|]. intros grow fuel Lf json T.
    destruct (prints_frequent u c k m n sorted F S ss dk wss Hi Fit Ww) as (ix2 & E2 & Y). assert (ix2 = ix) as -> by congruence.
    destruct (Y grow fuel Lf json T) as (rounds & calls & out & Eo & Fr & _). unfold extract, extract_loop in Eo.
    destruct (extract_steps grow ix json T fuel rounds calls (start_query ix) 0) as [out0 e0] eqn:Es.
    destruct e0 as [[]|e0| |]; try discriminate. cbn [bind] in Eo. injection Eo as ->.
    destruct (extract_cut grow t ix ix' C json T fuel rounds calls _ _ _ _ Es) as (o' & rest & e' & E1 & E3 & H).
    exists rounds, calls, o', rest, e'. rewrite (start_cut t ix ix' C). split; [exact E1|]. rewrite <- E3. split; [exact Fr|]. split.
    - destruct H as [[_ ->]|[->|[_ ->]]]; auto.
    - intros Sd ->. destruct H as [[-> _]|[X|[N0 _]]]; [reflexivity|discriminate|]. exfalso. apply N0. rewrite Wd, Kd in Sd. injection Sd as Sd.
      apply (f_equal (@List.length _)) in Sd. rewrite app_length in Sd. destruct t; [reflexivity|cbn [List.length] in Sd; lia].
  Qed.
  End Cut.

  (** Nothing but the table of documents is gone. *)
  Definition no_dmd : disk := MkDisk (k_cfg dk) (Some []) (k_fnames dk) (k_shards dk).
  Lemma no_dmd_short : shortened (files_of dk) (files_of no_dmd).
  Proof.
    assert (R : forall o, cut_from o o) by (intros [b|]; [exists []; rewrite app_nil_r; reflexivity|exact I]).
    destruct (opened u c k m n sorted F S ss dk wss Hi Fit Ww) as (ix & E & _). pose proof (history_cfg u c ss dk Hi) as Kc.
    destruct (open_index_parts c k m n F sorted dk ix E Kc) as [Kd _].
    unfold files_of, no_dmd. constructor; cbn [w_cfg w_dmd w_fnames w_shards k_cfg k_dmd k_fnames k_shards]; auto.
    - rewrite Kd. exists (ix_dmd ix). reflexivity.
    - induction (k_shards dk) as [|p l IH]; cbn [map]; constructor; auto.
  Qed.
  (** With it, if any blot is frequent enough, extract prints nothing and ends as if there
      were nothing to print. *)
  Theorem C75_extract_refuted T : (exists blot, blot < N.of_nat n * 65536 /\ (2 <= List.length (having blot))%nat /\ (T <= Z.of_nat (List.length (having blot)))%Z) ->
    exists fs, shortened (files_of dk) fs /\ forall dirs, dirs (cf_root c) = fs ->
    exists ix, open_files sorted dirs (cf_root c) = Ok ix /\
    forall grow fuel json, (List.length (all_docs ss) < fuel)%nat -> exists rounds calls es,
      extract_steps grow ix json T fuel rounds calls (start_query ix) 0 = ([], Ok tt) /\
      frequent (word_hash u) k m n (all_docs ss) wss T es /\ es <> [].
  Proof.
    intros (blot & L1 & L2 & L3). exists (files_of no_dmd). split; [exact no_dmd_short|]. intros dirs Ed.
    pose proof (history_cfg u c ss dk Hi) as Kc. destruct (open_files_of c k m n F V sorted dirs no_dmd Ed Kc) as [-> _].
    destruct (prints_frequent u c k m n sorted F S ss dk wss Hi Fit Ww) as (ix & E & Y).
    assert (exists ix', open_index sorted no_dmd = Ok ix' /\ ix_dmd ix' = [] /\ ix_shards ix' = ix_shards ix) as (ix' & -> & D & Sh).
    { clear -E. unfold open_index, read_config, no_dmd in *. cbn [k_cfg k_dmd k_fnames k_shards] in *. destruct (k_cfg dk) as [c0|]; [|discriminate].
      cbn [bind] in *. destruct (cfg_check c0); try discriminate. cbn [bind] in *.
      destruct (read_some Ok (k_dmd dk)); try discriminate. cbn [bind read_some] in *. destruct (read_some read_fnames (k_fnames dk)); try discriminate. cbn [bind] in *.
      destruct (_ <? 0)%Z; [discriminate|]. destruct (for_shards _ _ _) as [xs| | |]; try discriminate. cbn [bind] in *. eexists. split; [reflexivity|].
      injection E as <-. auto. }
    exists ix'. split; [reflexivity|]. intros grow fuel json Lf. destruct (Y grow fuel Lf json T) as (rounds & calls & out & Eo & Fr & _).
    exists rounds, calls, (map entry_of out). split; [|split; [exact Fr|]].
    - destruct out as [|o out]; [|exact (extract_none grow ix ix' D Sh json T fuel rounds calls o out Eo)].
      destruct Fr as (_ & I & _). exfalso. exact (proj2 (I blot (map (place_of (all_docs ss)) (having blot))) ltac:(auto)).
    - destruct Fr as (_ & I & _). pose proof (proj2 (I blot (map (place_of (all_docs ss)) (having blot))) ltac:(auto)) as X. intros Z. rewrite Z in X. exact X.
  Qed.
  (** And a session that appends to it is not told either: it gives out ids from 1 on, which
      documents already have. *)
  Theorem C75_append_refuted : exists fs, shortened (files_of dk) fs /\ forall dirs, dirs (cf_root c) = fs ->
    exists x ws, open_indexer_files dirs (cf_root c) = Ok (x, ws) /\
    forall cwd d fn dm id, doc2id (x_fnames x) (x_dmds x) cwd d = Ok (fn, dm, id) -> id = 1.
  Proof.
    exists (files_of no_dmd). split; [exact no_dmd_short|]. intros dirs Ed.
    pose proof (history_cfg u c ss dk Hi) as Kc. destruct (open_files_of c k m n F V sorted dirs no_dmd Ed Kc) as [_ ->].
    pose proof F as [O Hn Hf].
    assert (exists x ws, open_indexer dk = Ok (x, ws)) as (x & ws & E).
    { destruct (history_inv u c k m n O Hn Hf ss dk Hi Fit wss Ww) as (fn & rs & Dk).
      destruct (open_start u c k m n O Hn Hf (all_docs ss) wss fn rs dk Dk (df_len _ Fit)) as (x & ws & E & _). eauto. }
    assert (NA : new_adder (Some []) (cf_flush c) = Ok (MkAdder 0 (Z.to_N (cf_flush c mod 4294967296)) [zero_fields])).
    { unfold new_adder. cbn [nlen List.length N.of_nat]. change (u32 (0 / rcd_size) =? 0) with true. cbv iota.
      destruct (Z.ltb_spec (cf_flush c) 1) as [L|L]; [lia|]. reflexivity. }
    unfold open_indexer, read_config, no_dmd in *. cbn [k_cfg k_dmd k_fnames k_shards] in *. rewrite Kc in *.
    cbn [bind] in *. destruct (cfg_check c); try discriminate. cbn [bind] in *. destruct (_ <? 0)%Z; [discriminate|].
    destruct (new_adder (k_dmd dk) (cf_flush c)); try discriminate. rewrite NA. cbn [bind] in *.
    destruct (read_some read_fnames (k_fnames dk)); try discriminate. cbn [bind] in *. destruct (token_from_config _); try discriminate. cbn [bind] in *.
    destruct (for_shards _ _ _) as [xs| | |]; try discriminate. cbn [bind] in *. destruct (start_workers c) as [ws'| | |]; try discriminate. cbn [bind] in *.
    eexists _, _. split; [reflexivity|]. cbn [x_fnames x_dmds]. intros cwd d fn dm id Ei. unfold doc2id in Ei.
    destruct (add_path cwd _ (d_path d)) as [[fn1 fid]| | |]; try discriminate. cbn [bind] in Ei. unfold adder_add, adder_flush in Ei.
    cbn [a_buf a_rate a_flushed nlen List.length] in Ei. destruct (_ =? _) in Ei; injection Ei as _ _ <-; reflexivity.
  Qed.
End Histories.
Print Assumptions C75_get.
Print Assumptions C75_next.
Print Assumptions C75_extract_partial.
Print Assumptions C75_extract_refuted.
Print Assumptions C75_append_refuted.

(** The hypotheses are met: five documents in the default configuration, a blot that two of
    them have, and files that have lost something. *)
Example C75_example : cfg_full wit_config 1 10 2 /\ cfg_values wit_config /\ docs_fit (all_docs [wit_docs]) /\ (0 < cf_numshatters wit_config)%Z /\
  forall u, words_of (word_char u) (all_docs [wit_docs]) wit_wss /\
  (let hs := carriers (word_hash u) 1 10 2 0 wit_wss wit_blot1 in
   wit_blot1 < N.of_nat 2 * 65536 /\ (2 <= List.length hs)%nat /\ (2 <= Z.of_nat (List.length hs))%Z) /\
  shortened (MkFiles (Some [1; 2]) (Some [3]) (Some [4; 5]) [(Some [6], Some [7; 8])]) (MkFiles (Some [1]) (Some []) (Some [4; 5]) [(None, Some [7])]).
Proof.
  split; [exact wit_full|]. split.
  { constructor; try (split; [vm_compute; discriminate|reflexivity]); apply Utf8P.utf8_valid_spec; vm_compute; reflexivity. }
  split; [rewrite all_docs_one; exact wit_fit|]. split; [reflexivity|]. intros u. split; [rewrite all_docs_one; exact (wit_words u)|]. split.
  - cbv zeta. rewrite wit_carriers, N.eqb_refl. vm_compute. repeat split; try discriminate; auto.
  - constructor; cbn; [exists [2]|exists [3]|exists []|]; try reflexivity. constructor; [|constructor]. cbn. split; [exact I|exists [8]; reflexivity].
Qed.
