(** C101: Query.Next against Query.Get. *)
From Coq Require Import String.
From Verif Require Import Model.Base Model.Utf8 Model.Token Model.Blotter Model.Post Model.Poster Model.Shatter Model.Shard Model.Dmd Model.Fnames Model.Address Model.Conc Model.Config Model.Json Model.Run Model.Index Model.Query Model.Session Model.Crash.
From Verif Require Import Spec.Text Spec.Fingerprint Spec.Configs Spec.Paths Spec.Reading Spec.Querying Spec.Counts Spec.History Spec.Str.
From Verif Require Import Proof.Tactics Proof.TokenP Proof.BlotterP Proof.ShardP Proof.QueryP Proof.QueryW Proof.SortP Proof.SessionP Proof.SessionP2 Proof.DamagedP3 Proof.CrashP Proof.CrashP2 Proof.CrashP3 Proof.ReuseP Proof.SoundP Proof.LikeP3 Proof.QueryP3 Proof.AgreeP Proof.AgreeP2.
From Verif Require Import Props.Sound Props.Query.
From Coq Require Import Lia.
Local Open Scope N_scope.
Local Open Scope list_scope.

(** Whatever the tables and files of an open index hold: an entry that calls of Next with
    unlimited entries have returned is what Get answers for its blot, with two documents at
    least. *)
Theorem C101_entries_are_answers : forall grow ix fuel, (0 < List.length (ix_shards ix))%nat -> nlen (ix_shards ix) < 65536 ->
  (forall si, In si (ix_shards ix) -> perm_ok (si_counts si) (si_perm si)) ->
  forall q out, queried grow ix fuel unlimited q out ->
  forall e, In e out -> be_blot e < nlen (ix_shards ix) * 65536 /\ query_get grow ix fuel (be_blot e) None = Ok (be_docs e) /\ (2 <= docs_len (be_docs e))%nat.
Proof.
  intros grow ix fuel Pn Mx Pm q out Q e He. destruct (queried_told grow ix _ fuel eq_refl Pn Mx Pm q out Q) as [_ T].
  rewrite Forall_forall in T. exact (T e He).
Qed.

Lemma told_num ix s si b : nth_error (ix_shards ix) s = Some si -> (0 < List.length (ix_shards ix))%nat -> nlen (ix_shards ix) < 65536 -> (b < num_slots)%nat ->
  told_count ix (num (List.length (ix_shards ix)) s b) = count si b.
Proof.
  intros E Pn Mx Lb. assert (Ls : (s < List.length (ix_shards ix))%nat) by (apply nth_error_Some; congruence).
  destruct (num_back (fun x => x) ix _ eq_refl Pn Mx s b Ls Lb) as (A & B & L). unfold told_count. change (nlen (ix_shards ix)) with (N.of_nat (List.length (ix_shards ix))) in *. rewrite A, E.
  assert (D : num (List.length (ix_shards ix)) s b / N.of_nat (List.length (ix_shards ix)) < 65536) by (apply N.div_lt_upper_bound; [clear -Pn; lia|exact L]). rewrite (N.mod_small _ _ D) in B. rewrite B. reflexivity.
Qed.
(** And if no list with two documents or more in the table is shorter than two in the file,
    then no blot is returned twice, and at the end of file all that the table has with two
    or more have been returned. *)
Theorem C101_all_once : forall grow ix fuel, (0 < List.length (ix_shards ix))%nat -> nlen (ix_shards ix) < 65536 ->
  (forall si, In si (ix_shards ix) -> perm_ok (si_counts si) (si_perm si)) -> no_short_list grow ix fuel ->
  forall q out, queried grow ix fuel unlimited q out -> NoDup (map be_blot out) /\
  forall dst k r, unlimited dst -> query_next grow ix fuel k q dst = Ok (r, true) ->
  forall blot, blot < nlen (ix_shards ix) * 65536 -> 2 <= told_count ix blot -> In blot (map be_blot out).
Proof.
  intros grow ix fuel Pn Mx Pm Ns q out Q.
  assert (Ns' : forall s si b ds, nth_error (ix_shards ix) s = Some si -> (b < num_slots)%nat -> 2 <= count si b -> got grow ix fuel si b = Ok ds -> (2 <= docs_len ds)%nat).
  { intros s si b ds E Lb C G. assert (Ls : (s < List.length (ix_shards ix))%nat) by (apply nth_error_Some; congruence).
    apply (Ns (num (List.length (ix_shards ix)) s b)).
    - apply (num_back grow ix _ eq_refl Pn Mx s b Ls Lb).
    - rewrite (told_num ix s si b E Pn Mx Lb). exact C.
    - rewrite (get_got grow ix _ fuel eq_refl Pn Mx Pm s si b E Lb). exact G. }
  split; [exact (queried_once grow ix _ fuel eq_refl Pn Mx Pm Ns' q out Q)|].
  intros dst k r U E blot Lb C. destruct (num_onto grow ix _ fuel eq_refl Pn Mx blot Lb) as (s & b & Ls & Lb' & ->). destruct (nth_error (ix_shards ix) s) as [si|] eqn:Es; [|apply nth_error_None in Es; lia].
  rewrite (told_num ix s si b Es Pn Mx Lb') in C. exact (queried_all grow ix _ fuel eq_refl Pn Mx Pm Ns' q out dst k r Q U E s si b Es Lb' C).
Qed.
Lemma opened_order sorted iix pos si : shard_open sorted iix pos = Ok si -> List.length (si_counts si) = num_slots /\ si_perm si = sorted (si_counts si).
Proof.
  unfold shard_open. generalize num_slots as n. intros n E. destruct (read_table n iix) as [t| | |] eqn:Et; try discriminate. injection E as <-.
  apply table_slots in Et. cbn [si_counts si_perm]. rewrite map_length. destruct Et. auto.
Qed.
(** The order that the two ask for is there in every index that opens. *)
Theorem C101_opened_in_order : forall sorted dirs root ix, sorts sorted -> open_files sorted dirs root = Ok ix ->
  forall si, In si (ix_shards ix) -> perm_ok (si_counts si) (si_perm si).
Proof.
  intros sorted dirs root ix Hs E si Hi. unfold open_files in E.
  destruct (Json.read_config _) as [c| | |]; cbn [bind] in E; try discriminate. destruct (read_some Ok _) as [dm| | |]; cbn [bind] in E; try discriminate.
  destruct (read_some read_fnames _) as [fn| | |]; cbn [bind] in E; try discriminate. destruct (_ <? 0)%Z; [discriminate|].
  destruct (for_files _ _ _) as [xs| | |] eqn:Ex; cbn [bind] in E; try discriminate. assert (ix = MkIndex c dm fn xs) as -> by congruence. cbn [ix_shards] in Hi.
  destruct (for_files_nth _ _ _ _ Ex) as [Lx Nx]. apply In_nth_error in Hi. destruct Hi as [j Ej].
  destruct (Nx j) as (iix & pos & si' & _ & Ej' & Eo); [rewrite <- Lx; apply nth_error_Some; congruence|]. assert (si' = si) as -> by congruence. destruct (opened_order _ _ _ _ Eo) as [L ->]. exact (Hs _ L).
Qed.
Print Assumptions C101_entries_are_answers.
Print Assumptions C101_all_once.
Print Assumptions C101_opened_in_order.

(** After an append session that was stopped anywhere: what calls of Next have returned are
    different blots, each with the documents that have it, from the first on, of which those
    of the earlier sessions are all there; and at the end of file every blot of two documents
    of the earlier sessions has been returned. *)
Theorem C101_after_a_stop : forall u c k m n, cfg_full c k m n -> cfg_values c ->
  forall sorted ss dk wss docs w1 fs dirs ix, sorts sorted -> history u c ss dk -> docs_fit (all_docs ss ++ docs) ->
  words_of (word_char u) (all_docs ss) wss -> words_of (word_char u) docs w1 ->
  append_stopped u dk docs fs -> dirs (cf_root c) = fs -> open_files sorted dirs (cf_root c) = Ok ix ->
  let old := carriers (word_hash u) k m n 0 wss in let all := carriers (word_hash u) k m n 0 (wss ++ w1) in
  forall grow fuel q out, queried grow ix fuel unlimited q out ->
  NoDup (map be_blot out) /\
  (forall e, In e out -> exists new more, all (be_blot e) = old (be_blot e) ++ new ++ more /\
    docs_keys (be_docs e) = map (place_of (all_docs ss ++ docs)) (old (be_blot e) ++ new) /\ (2 <= List.length (old (be_blot e) ++ new))%nat) /\
  forall dst i r, unlimited dst -> query_next grow ix fuel i q dst = Ok (r, true) ->
    forall blot, blot < N.of_nat n * 65536 -> (2 <= List.length (old blot))%nat -> In blot (map be_blot out).
Proof.
  intros u c k m n F V sorted ss dk wss docs w1 fs dirs ix Hs Hi Fit Ww W1 Ap Ed Eo old all grow fuel q out Q.
  destruct (append_stopped_shards u c k m n F V sorted ss dk wss docs w1 fs dirs ix Hs Hi Fit Ww W1 Ap Ed Eo) as [Ln Sh].
  pose proof (co_n _ _ _ _ (cu_ok _ _ _ _ F)) as Pn. pose proof (cu_n _ _ _ _ F) as Hn.
  assert (Pn' : (0 < List.length (ix_shards ix))%nat) by (rewrite Ln; exact Pn).
  assert (Mx : nlen (ix_shards ix) < 65536) by (unfold nlen; rewrite Ln; exact Hn).
  pose proof (C101_opened_in_order sorted dirs (cf_root c) ix Hs Eo) as Pm.
  assert (Sm : forall blot, blot < N.of_nat n * 65536 -> blot mod (N.of_nat n * 65536) = blot) by (intros; apply N.mod_small; assumption).
  assert (Get : forall blot ds, blot < N.of_nat n * 65536 -> query_get grow ix fuel blot None = Ok ds ->
    exists new more, all blot = old blot ++ new ++ more /\ docs_keys ds = map (place_of (all_docs ss ++ docs)) (old blot ++ new)).
  { intros blot ds Lb E. pose proof (C98_earlier_documents_are_there u c k m n F V sorted ss dk wss docs w1 fs dirs ix Hs Hi Fit Ww W1 Ap Ed Eo grow blot fuel None ds) as X.
    cbv zeta in X. rewrite (Sm _ Lb) in X. exact (X (or_introl eq_refl) E). }
  assert (Len : forall blot ds, query_get grow ix fuel blot None = Ok ds -> docs_len ds = List.length (docs_keys ds)).
  { intros blot ds E. symmetry. apply keys_len. unfold query_get in E. destruct (get_address _ _) as [[a b]| | |]; cbn [bind] in E; try discriminate.
    destruct (nth_error (ix_shards ix) (N.to_nat a)) as [si|]; [|discriminate]. cbn [is_nil negb] in E. clear -E.
    assert (W0 : docs_wf None) by exact Logic.I. revert W0 E. generalize (rs_posts (read_state_for si (N.to_nat b))). generalize (@None (nat * list doc)).
    induction fuel as [|f IH]; intros d0 ps W E; cbn [get_loop andb] in E; [discriminate|]. destruct (posts_next ps (si_file si)) as [[did ps1]|[]| |]; try discriminate.
    - destruct (docid2doc ix did) as [[[p x] y]| | |]; cbn [bind] in E; try discriminate. destruct (put_doc grow false d0 p x y) as [d1| | |] eqn:Ep; cbn [bind] in E; try discriminate.
      eapply IH; [|exact E]. destruct (put_doc_free grow d0 p x y W) as (d2 & E2 & W2 & _). congruence.
    - assert (ds = d0) as -> by congruence. exact W. }
  assert (Cn : forall blot, blot < N.of_nat n * 65536 -> told_count ix blot = nlen (old blot) \/ told_count ix blot = nlen (all blot) /\
      forall ds, query_get grow ix fuel blot None = Ok ds -> docs_len ds = List.length (all blot)).
  { intros blot Lb. destruct (num_onto grow ix n fuel Ln Pn Hn blot Lb) as (s & b & Ls & Lb' & Eb). destruct (nth_error (ix_shards ix) s) as [si|] eqn:Es; [|apply nth_error_None in Es; lia].
    pose proof (told_num ix s si b Es Pn' Mx Lb') as T. rewrite Ln, <- Eb in T. rewrite T.
    destruct (Sh s si Es b Lb') as [_ C]. change (N.of_nat b * N.of_nat n + N.of_nat s) with (num n s b) in C. rewrite <- Eb in C. destruct C as [C|[C R]]; [left; exact C|right]. split; [exact C|].
    intros ds E. rewrite Eb, (get_got grow ix n fuel Ln Pn Hn Pm s si b Es Lb') in E. unfold got in E. fold (all blot) in R.
    clear -E R. revert R E. generalize (new_posts (nth b (si_heads si) (-1)%Z)). 
    assert (G : forall ids f ps d0 ds, reads (si_file si) ps ids -> get_loop grow ix f false (si_file si) ps d0 = Ok ds -> docs_wf d0 -> docs_len ds = (docs_len d0 + List.length ids)%nat).
    { induction ids as [|x ids IH]; intros f ps d0 ds0 R E W; (destruct f as [|f]; [discriminate|]); cbn [get_loop andb reads] in *.
      - rewrite R in E. assert (ds0 = d0) as -> by congruence. cbn [List.length]. lia.
      - destruct R as (ps' & Ep & R). rewrite Ep in E. destruct (docid2doc ix x) as [[[p a] e]| | |]; cbn [bind] in E; try discriminate.
        destruct (put_doc_free grow d0 p a e W) as (d1 & E1 & W1 & L1 & _). rewrite E1 in E. cbn [bind] in E. rewrite (IH _ _ _ _ R E W1). cbn [List.length].
        pose proof (keys_len d1 W1) as K1. pose proof (keys_len d0 W) as K0. unfold docs_keys in K0, K1. rewrite L1, map_app, app_length in K1. cbn [map List.length] in K1. lia. }
    intros ps R E. rewrite (G _ _ _ _ _ R E Logic.I). reflexivity. }
  assert (Ns : no_short_list grow ix fuel).
  { intros blot ds Lb C E. unfold nlen in Lb. rewrite Ln in Lb. destruct (Cn blot Lb) as [Co|[Co Al]].
    - rewrite (Len blot ds E). destruct (Get blot ds Lb E) as (new & more & _ & ->). rewrite map_length, app_length. rewrite Co in C. unfold nlen in C. lia.
    - rewrite (Al ds E). rewrite Co in C. unfold nlen in C. lia. }
  destruct (C101_all_once grow ix fuel Pn' Mx Pm Ns q out Q) as [Nd Al]. split; [exact Nd|]. split.
  - intros e He. destruct (C101_entries_are_answers grow ix fuel Pn' Mx Pm q out Q e He) as (Lb & Eg & L2). unfold nlen in Lb. rewrite Ln in Lb.
    destruct (Get _ _ Lb Eg) as (new & more & Ea & Ek). exists new, more. split; [exact Ea|]. split; [exact Ek|]. rewrite (Len _ _ Eg), Ek, map_length in L2. exact L2.
  - intros dst i r U E blot Lb Lo. apply (Al dst i r U E blot); [unfold nlen; rewrite Ln; exact Lb|]. destruct (Cn blot Lb) as [->|[-> _]]; unfold nlen; [lia|].
    unfold all. rewrite carriers_app, app_length. fold (old blot). lia.
Qed.
Print Assumptions C101_after_a_stop.

(** Without the condition of [C101_all_once] a list that is gone from one shard takes the
    blots of another with it. The index of [C30_limited_entries_refuted]: the table of the
    first shard has three documents for a slot, but no list. Next then reports end of file
    at once, although the second shard is whole and Get has two documents for its blot. *)
Theorem C101_a_lost_list_hides_others : forall u sorted grow fuel, sorts sorted -> (5 < fuel)%nat ->
  exists dk ix, history u wit_config [wit_docs] dk /\ open_index sorted dk = Ok ix /\
  let b := N.to_nat (wit_blot1 / 2) in
  let iy := without_list ix b in
  (exists ds, query_get grow iy fuel wit_blot2 None = Ok ds /\ docs_keys ds = map (place_of wit_docs) [4; 5]) /\
  (exists out, listing grow iy fuel unlimited (start_query iy) out) /\
  forall out, listing grow iy fuel unlimited (start_query iy) out -> out = [].
Proof.
  intros u sorted grow fuel Hs Hf. destruct wit_full as [O Hn Hfl] eqn:EF.
  destruct (history_exists u wit_config 1 10 2 O Hn Hfl [wit_docs]) as [dk Hi]; [discriminate|reflexivity|exact wit_fit|].
  destruct (opened u wit_config 1 10 2 sorted wit_full Hs [wit_docs] dk wit_wss Hi wit_fit (wit_words u)) as (ix & E & I).
  exists dk, ix. split; [exact Hi|]. split; [exact E|]. cbv zeta.
  assert (B0 : N.of_nat (N.to_nat (wit_blot1 / 2)) * 2 = wit_blot1) by (vm_compute; reflexivity).
  assert (B1 : N.of_nat (N.to_nat (wit_blot2 / 2)) * 2 + 1 = wit_blot2) by (vm_compute; reflexivity).
  assert (W : (forall dst, unlimited dst -> dst <> [] -> exists r, query_next grow (without_list ix (N.to_nat (wit_blot1 / 2))) fuel 5 (start_query (without_list ix (N.to_nat (wit_blot1 / 2)))) dst = Ok (r, true)) /\
    forall out, listing grow (without_list ix (N.to_nat (wit_blot1 / 2))) fuel unlimited (start_query (without_list ix (N.to_nat (wit_blot1 / 2)))) out -> out = []).
  { apply (list_gone grow ix (place_of wit_docs) (held (word_hash u) 1 10 2 wit_wss) fuel I (N.to_nat (wit_blot1 / 2)) (N.to_nat (wit_blot2 / 2)) 1 2 3 4 5); auto.
    - assert (wit_blot1 / 2 < 65536) by (vm_compute; reflexivity). unfold num_slots. lia.
    - assert (wit_blot2 / 2 < 65536) by (vm_compute; reflexivity). unfold num_slots. lia.
    - intros b Lb Nb. unfold held. change (N.of_nat 2) with 2. change (N.of_nat 0) with 0. rewrite wit_carriers.
      destruct (N.eqb_spec wit_blot1 (N.of_nat b * 2 + 0)) as [A|_]; [exfalso; lia|].
      destruct (N.eqb_spec wit_blot2 (N.of_nat b * 2 + 0)) as [A|_]; [exfalso; lia|reflexivity].
    - intros b Lb Nb. unfold held. change (N.of_nat 2) with 2. change (N.of_nat 1) with 1. rewrite wit_carriers.
      destruct (N.eqb_spec wit_blot1 (N.of_nat b * 2 + 1)) as [A|_]; [exfalso; lia|].
      destruct (N.eqb_spec wit_blot2 (N.of_nat b * 2 + 1)) as [A|_]; [exfalso; lia|reflexivity].
    - lia. }
  destruct W as [W1 W2]. split; [|split; [|exact W2]].
  - destruct (query_exact u wit_config 1 10 2 sorted wit_full Hs [wit_docs] dk wit_wss Hi wit_fit (wit_words u)) as (ix' & E' & Q). assert (ix' = ix) as -> by congruence.
    destruct (Q grow wit_blot2 fuel Hf) as (ds & Eg & K). exists ds. split.
    + rewrite <- Eg. clear -I. destruct (QueryP3.shards2 ix (place_of wit_docs) _ I) as (s0 & s1 & Es).
      unfold query_get, without_list. cbn [ix_shards]. rewrite Es. change (u32 (nlen [s0; s1])) with 2.
      match goal with |- context [nlen ?l] => change (u32 (nlen l)) with 2 end. change (get_address 2 wit_blot2) with (Ok (1, u16 (wit_blot2 / 2))). cbn [bind].
      change (N.to_nat 1) with 1%nat. cbn [nth_error is_nil negb].
      reflexivity.
    + assert (Eb : wit_blot2 mod (N.of_nat 2 * 65536) = wit_blot2) by (vm_compute; reflexivity). rewrite Eb, wit_carriers in K. exact K.
  - destruct (W1 [MkEntry 0 None]) as [r Er]; [repeat constructor|discriminate|]. exists []. eapply listing_end; [|exact Er]. repeat constructor.
Qed.
Print Assumptions C101_a_lost_list_hides_others.

(** The index just mentioned, while it is whole, meets the conditions of the first two. *)
Example C101_example u sorted grow fuel : sorts sorted -> (5 < fuel)%nat -> exists dk ix, history u wit_config [wit_docs] dk /\ open_index sorted dk = Ok ix /\
  (0 < List.length (ix_shards ix))%nat /\ nlen (ix_shards ix) < 65536 /\ (forall si, In si (ix_shards ix) -> perm_ok (si_counts si) (si_perm si)) /\
  no_short_list grow ix fuel /\ 2 <= told_count ix wit_blot2.
Proof.
  intros Hs Hf. destruct wit_full as [O Hn Hfl] eqn:EF.
  destruct (history_exists u wit_config 1 10 2 O Hn Hfl [wit_docs]) as [dk Hi]; [discriminate|reflexivity|exact wit_fit|].
  destruct (opened u wit_config 1 10 2 sorted wit_full Hs [wit_docs] dk wit_wss Hi wit_fit (wit_words u)) as (ix & E & I).
  exists dk, ix. split; [exact Hi|]. split; [exact E|]. pose proof (io_len _ _ _ _ I) as Ln. unfold nlen. rewrite Ln.
  assert (Co : forall blot, blot < N.of_nat 2 * 65536 -> told_count ix blot = nlen (carriers (word_hash u) 1 10 2 0 wit_wss blot)).
  { intros blot Lb. destruct (num_onto grow ix 2 fuel Ln ltac:(lia) ltac:(reflexivity) blot Lb) as (s & b & Ls & Lb' & ->). destruct (nth_error (ix_shards ix) s) as [si|] eqn:Es; [|apply nth_error_None in Es; lia].
    pose proof (told_num ix s si b Es ltac:(lia) ltac:(unfold nlen; rewrite Ln; reflexivity) Lb') as T. rewrite Ln in T. rewrite T.
    destruct (io_reads _ _ _ _ I s si Es b Lb') as [_ C]. exact C. }
  split; [lia|]. split; [reflexivity|]. split; [intros si Hsi; apply In_nth_error in Hsi; destruct Hsi as [j Ej]; exact (io_perm _ _ _ _ I j si Ej)|]. split.
  - intros blot ds Lb C Eg. unfold nlen in Lb. rewrite Ln in Lb. rewrite (Co blot Lb) in C.
    destruct (get_unlimited grow ix (place_of (all_docs [wit_docs])) 2 _ I blot fuel) as (ds' & Eg' & W & L).
    { unfold held. rewrite wit_carriers. repeat match goal with |- context [if ?x then _ else _] => destruct x end; cbn [List.length]; lia. }
    assert (ds' = ds) as -> by congruence. pose proof (keys_len ds W) as K. unfold docs_keys in K. rewrite L, !map_length in K. rewrite <- K.
    change (held (word_hash u) 1 10 2 wit_wss (QueryP.shard_of 2 blot) (QueryP.slot_of 2 blot)) with (at_blot 2 (held (word_hash u) 1 10 2 wit_wss) blot).
    rewrite (LikeP3.at_blot_held u 1 10 2 wit_wss blot ltac:(lia) Lb). unfold nlen in C. lia.
  - rewrite Co by (vm_compute; reflexivity). rewrite wit_carriers. vm_compute. discriminate.
Qed.
