(** C113: the order in which documents are added. *)
From Coq Require Import String Sorting.Permutation Sorting.Sorted QArith.
From Verif Require Import Model.Base Model.Utf8 Model.Token Model.Blotter Model.Shard Model.Conc Model.Config Model.Index Model.Query Model.Session Model.Extract Model.Cmd Model.Float Model.Stats Model.Json Model.Inspect.
From Verif Require Import Spec.Text Spec.Fingerprint Spec.Configs Spec.Paths Spec.Reading Spec.Querying Spec.History Spec.Stretch Spec.Str.
From Verif Require Import Proof.Tactics Proof.TokenP Proof.BlotterP Proof.QueryP Proof.QueryW Proof.SessionP Proof.SessionP2 Proof.StatsP4 Proof.InspectP3 Proof.IndexP Proof.UnblotP Proof.LikeP4 Proof.LikeW Proof.OrderP.
From Verif Require Import Props.Query Props.Extract Props.Cmd.
From Coq Require Import Lia.
Local Open Scope N_scope.
Local Open Scope list_scope.

(** C113: "What an index answers does not depend on the order in which its documents were added,
    nor on how they were divided into sessions."

    [c] and [c'] may differ in everything but the shards and the blotter: number of workers,
    rate of flushing, root. [grow], [fuel], [sorted]: as in C26. *)
Theorem C113_get : forall u c c' k m n sorted sorted', cfg_full c k m n -> cfg_full c' k m n -> sorts sorted -> sorts sorted' ->
  forall ss ss' dk dk', history u c ss dk -> history u c' ss' dk' -> docs_fit (all_docs ss) -> Permutation (all_docs ss) (all_docs ss') ->
  exists ix ix', open_index sorted dk = Ok ix /\ open_index sorted' dk' = Ok ix' /\
  forall grow grow' fuel fuel' blot, (List.length (all_docs ss) < fuel)%nat -> (List.length (all_docs ss) < fuel')%nat ->
  exists ds ds', query_get grow ix fuel blot None = Ok ds /\ query_get grow' ix' fuel' blot None = Ok ds' /\
    Permutation (docs_keys ds) (docs_keys ds') /\ (all_docs ss = all_docs ss' -> docs_keys ds = docs_keys ds').
Proof.
  intros u c c' k m n sorted sorted' F F' S S' ss ss' dk dk' Hi Hi' Fit P. destruct (words_total u (all_docs ss)) as [wss W]. destruct (words_perm _ _ _ P wss W) as (wss' & W' & Pc).
  pose proof (fit_perm _ _ P Fit) as Fit'.
  destruct (C26_query_is_exact u c k m n sorted F S ss dk wss Hi Fit W) as (ix & E & X). destruct (C26_query_is_exact u c' k m n sorted' F' S' ss' dk' wss' Hi' Fit' W') as (ix' & E' & X').
  exists ix, ix'. split; [exact E|]. split; [exact E'|]. intros grow grow' fuel fuel' blot L L'. rewrite (Permutation_length P) in L'.
  destruct (X grow blot fuel L) as (ds & G & K). destruct (X' grow' blot fuel' L') as (ds' & G' & K'). exists ds, ds'. split; [exact G|]. split; [exact G'|]. split.
  - rewrite K, K', (carriers_places _ _ _ _ _ _ _ _ W), (carriers_places _ _ _ _ _ _ _ _ W'). apply having_perm, Pc.
  - intros A. rewrite <- A in W'. rewrite K, K', (words_of_fun u _ _ _ W W'), A. reflexivity.
Qed.

(** The statistics, and what inspect prints. *)
Lemma same_stats u c c' k m n sorted sorted' : cfg_full c k m n -> cfg_full c' k m n -> sorts sorted -> sorts sorted' ->
  forall ss ss' dk dk', history u c ss dk -> history u c' ss' dk' -> docs_fit (all_docs ss) -> Permutation (all_docs ss) (all_docs ss') ->
  forall ix ix', open_index sorted dk = Ok ix -> open_index sorted' dk' = Ok ix' ->
  index_stats ix = index_stats ix' /\ ix_cfg ix = c /\ ix_cfg ix' = c' /\ forall fuse, blot_mean ix = blot_mean ix' /\ blot_sigma fuse ix = blot_sigma fuse ix'.
Proof.
  intros F F' S S' ss ss' dk dk' Hi Hi' Fit P ix ix' E E'. destruct (words_total u (all_docs ss)) as [wss W]. destruct (words_perm _ _ _ P wss W) as (wss' & W' & Pc).
  pose proof (fit_perm _ _ P Fit) as Fit'.
  destruct (stats_small u c k m n sorted F S ss dk wss Hi Fit W ix E) as (St & Ec & _). destruct (stats_small u c' k m n sorted' F' S' ss' dk' wss' Hi' Fit' W' ix' E') as (St' & Ec' & _).
  assert (Es : index_stats ix = index_stats ix').
  { rewrite St, St'. rewrite (tree_perm _ _ P), (pairs_perm _ _ _ _ _ _ _ _ _ W W' Pc). unfold nlen. rewrite (Permutation_length P). reflexivity. }
  split; [exact Es|]. split; [exact Ec|]. split; [exact Ec'|]. intros fuse. apply sigma_counts; [left; exact Es|]. clear St St' Es Ec Ec'.
  destruct (history_counts u c k m n sorted F S ss dk wss Hi Fit W) as (ix1 & E1 & Ln & _ & Hc & _). rewrite E in E1. injection E1 as <-.
  destruct (history_counts u c' k m n sorted' F' S' ss' dk' wss' Hi' Fit' W') as (ix1 & E1 & Ln' & _ & Hc' & _). rewrite E' in E1. injection E1 as <-.
  destruct (C26_opened u c k m n sorted F S ss dk wss Hi Fit W) as (ix1 & E1 & I). rewrite E in E1. injection E1 as <-.
  destruct (C26_opened u c' k m n sorted' F' S' ss' dk' wss' Hi' Fit' W') as (ix1 & E1 & I'). rewrite E' in E1. injection E1 as <-.
  apply (nth_ext _ _ [] []); [rewrite !map_length; congruence|]. intros s Ls. rewrite map_length in Ls.
  assert (exists si, nth_error (ix_shards ix) s = Some si) as [si Es] by (destruct (nth_error (ix_shards ix) s) eqn:X; [eauto|apply nth_error_None in X; lia]).
  assert (exists si, nth_error (ix_shards ix') s = Some si) as [si' Es'] by (destruct (nth_error (ix_shards ix') s) eqn:X; [eauto|apply nth_error_None in X; lia]).
  rewrite (nth_error_nth _ _ [] (map_nth_error si_counts s _ Es)), (nth_error_nth _ _ [] (map_nth_error si_counts s _ Es')).
  rewrite Forall_forall in Hc, Hc'. destruct (Hc si (nth_error_In _ _ Es)) as [L1 _]. destruct (Hc' si' (nth_error_In _ _ Es')) as [L2 _].
  apply (nth_ext _ _ 0 0); [congruence|]. intros b Lb. rewrite L1 in Lb.
  destruct (io_reads _ _ _ _ I s si Es b Lb) as [_ ->]. destruct (io_reads _ _ _ _ I' s si' Es' b Lb) as [_ ->].
  unfold held, nlen. f_equal. rewrite (carriers_count _ _ _ _ _ _ _ _ W), (carriers_count _ _ _ _ _ _ _ _ W'). apply Permutation_length, having_perm, Pc.
Qed.
Theorem C113_inspect : forall u c c' k m n sorted sorted', cfg_full c k m n -> cfg_full c' k m n -> sorts sorted -> sorts sorted' ->
  forall ss ss' dk dk', history u c ss dk -> history u c' ss' dk' -> docs_fit (all_docs ss) -> Permutation (all_docs ss) (all_docs ss') ->
  exists ix ix', open_index sorted dk = Ok ix /\ open_index sorted' dk' = Ok ix' /\
  index_stats ix = index_stats ix' /\ (forall fuse, blot_mean ix = blot_mean ix' /\ blot_sigma fuse ix = blot_sigma fuse ix') /\
  (cf_root c = cf_root c' -> forall fuse json, inspect fuse json ix = inspect fuse json ix').
Proof.
  intros u c c' k m n sorted sorted' F F' S S' ss ss' dk dk' Hi Hi' Fit P.
  destruct (C113_get u c c' k m n sorted sorted' F F' S S' ss ss' dk dk' Hi Hi' Fit P) as (ix & ix' & E & E' & _).
  destruct (same_stats u c c' k m n sorted sorted' F F' S S' ss ss' dk dk' Hi Hi' Fit P ix ix' E E') as (St & Ec & Ec' & Fl).
  exists ix, ix'. split; [exact E|]. split; [exact E'|]. split; [exact St|]. split; [exact Fl|]. intros R fuse json. destruct (Fl fuse) as [M Sg].
  unfold inspect, inspect_json, inspect_plain. rewrite Ec, Ec', R, St, M, Sg. reflexivity.
Qed.

(** The blots that extract prints, and their documents. *)
Theorem C113_extract : forall u c c' k m n sorted sorted', cfg_full c k m n -> cfg_full c' k m n -> sorts sorted -> sorts sorted' ->
  forall ss ss' dk dk', history u c ss dk -> history u c' ss' dk' -> docs_fit (all_docs ss) -> Permutation (all_docs ss) (all_docs ss') ->
  exists ix ix', open_index sorted dk = Ok ix /\ open_index sorted' dk' = Ok ix' /\
  forall grow grow' fuel fuel', (List.length (all_docs ss) < fuel)%nat -> (List.length (all_docs ss) < fuel')%nat ->
  forall fuse wild json json' sigma, exists k1 calls k2 calls' out out',
    extract_sigma fuse grow wild ix json sigma fuel k1 calls = Ok out /\ extract_sigma fuse grow' wild ix' json' sigma fuel' k2 calls' = Ok out' /\
    Permutation (map be_blot out) (map be_blot out') /\
    forall e e', In e out -> In e' out' -> be_blot e = be_blot e' ->
      Permutation (docs_keys (be_docs e)) (docs_keys (be_docs e')) /\ (all_docs ss = all_docs ss' -> docs_keys (be_docs e) = docs_keys (be_docs e')).
Proof.
  intros u c c' k m n sorted sorted' F F' S S' ss ss' dk dk' Hi Hi' Fit P. destruct (words_total u (all_docs ss)) as [wss W]. destruct (words_perm _ _ _ P wss W) as (wss' & W' & Pc).
  pose proof (fit_perm _ _ P Fit) as Fit'.
  destruct (C46_on_histories u c k m n sorted F S ss dk wss Hi Fit W) as (ix & E & X). destruct (C46_on_histories u c' k m n sorted' F' S' ss' dk' wss' Hi' Fit' W') as (ix' & E' & X').
  destruct (same_stats u c c' k m n sorted sorted' F F' S S' ss ss' dk dk' Hi Hi' Fit P ix ix' E E') as (_ & _ & _ & Fl).
  exists ix, ix'. split; [exact E|]. split; [exact E'|]. intros grow grow' fuel fuel' L L' fuse wild json json' sigma. rewrite (Permutation_length P) in L'.
  assert (T : extract_threshold fuse wild sigma ix = extract_threshold fuse wild sigma ix') by (destruct (Fl fuse) as [M Sg]; unfold extract_threshold; rewrite M, Sg; reflexivity).
  destruct (X grow fuel L json (extract_threshold fuse wild sigma ix)) as (k1 & calls & out & O & N1 & B & D & _).
  destruct (X' grow' fuel' L' json' (extract_threshold fuse wild sigma ix')) as (k2 & calls' & out' & O' & N1' & B' & D' & _).
  exists k1, calls, k2, calls', out, out'. split; [exact O|]. split; [exact O'|].
  assert (C : forall q, List.length (carriers (word_hash u) k m n 0 wss q) = List.length (carriers (word_hash u) k m n 0 wss' q)).
  { intros q. rewrite (carriers_count _ _ _ _ _ _ _ _ W), (carriers_count _ _ _ _ _ _ _ _ W'). apply Permutation_length, having_perm, Pc. }
  split.
  - apply NoDup_Permutation; [exact N1|exact N1'|]. intros b. rewrite B, B', C, T. reflexivity.
  - intros e e' I I' Eb. rewrite (D e I), (D' e' I'), Eb. split.
    + rewrite (carriers_places _ _ _ _ _ _ _ _ W), (carriers_places _ _ _ _ _ _ _ _ W'). apply having_perm, Pc.
    + intros A. rewrite <- A in W'. rewrite (words_of_fun u _ _ _ W W'), A. reflexivity.
Qed.

(** The documents that like names. *)
Theorem C113_like : forall u c c' k m n sorted sorted', cfg_full c k m n -> cfg_full c' k m n -> sorts sorted -> sorts sorted' ->
  forall ss ss' dk dk', history u c ss dk -> history u c' ss' dk' -> docs_fit (all_docs ss) -> Permutation (all_docs ss) (all_docs ss') ->
  exists ix ix', open_index sorted dk = Ok ix /\ open_index sorted' dk' = Ok ix' /\
  forall grow grow' fuel fuel', (List.length (all_docs ss) < fuel)%nat -> (List.length (all_docs ss) < fuel')%nat ->
  forall fs, all_in_place fs (all_docs ss) -> forall fname dat, nlen dat < 2 ^ 32 ->
  exists keys keys', like_file u fs grow ix fuel fname dat = Ok keys /\ like_file u fs grow' ix' fuel' fname dat = Ok keys' /\ Permutation keys keys'.
Proof.
  intros u c c' k m n sorted sorted' F F' S S' ss ss' dk dk' Hi Hi' Fit P.
  destruct (C113_get u c c' k m n sorted sorted' F F' S S' ss ss' dk dk' Hi Hi' Fit P) as (ix & ix' & E & E' & _).
  exists ix, ix'. split; [exact E|]. split; [exact E'|]. intros grow grow' fuel fuel' L L' fs A fname dat Ld.
  pose proof (fit_perm _ _ P Fit) as Fit'. rewrite (Permutation_length P) in L'.
  assert (Pl : forall docs i cwd x, nth_error docs i = Some (cwd, x) -> place_of docs (N.of_nat (Datatypes.S i)) = place (cwd, x)).
  { intros docs i cwd x Ex. unfold place_of. replace (N.to_nat (N.of_nat (Datatypes.S i) - 1)) with i by lia. rewrite Ex. reflexivity. }
  assert (A' : all_in_place fs (all_docs ss')).
  { intros i cwd x Ex. pose proof (Permutation_in _ (Permutation_sym P) (nth_error_In _ _ Ex)) as I. apply In_nth_error in I. destruct I as [j Ej].
    destruct (A j cwd x Ej) as (A1 & A2 & A3). rewrite (Pl _ _ _ _ Ex). rewrite (Pl _ _ _ _ Ej) in A3. auto. }
  destruct (ShatterP.doc_words_total u dat) as [ws Dw]. destruct (doc_spans_total u dat) as [sp Ds].
  destruct (C54_like_exactly_partial u c k m n sorted F S ss dk ix grow fs fuel fname dat ws sp Hi Fit E L A Dw Ds Ld) as (keys & K & ND & M).
  destruct (C54_like_exactly_partial u c' k m n sorted' F' S' ss' dk' ix' grow' fs fuel' fname dat ws sp Hi' Fit' E' L' A' Dw Ds Ld) as (keys' & K' & ND' & M').
  exists keys, keys'. split; [exact K|]. split; [exact K'|]. apply NoDup_Permutation; [exact ND|exact ND'|]. intros key. rewrite M, M'.
  split; intros (i & cwd & x & dws & dsp & q & t & Ei & Ek & R).
  - pose proof (Permutation_in _ P (nth_error_In _ _ Ei)) as I. apply In_nth_error in I. destruct I as [j Ej]. exists j, cwd, x, dws, dsp, q, t. split; [exact Ej|]. split; [|exact R]. rewrite Ek, (Pl _ _ _ _ Ei), (Pl _ _ _ _ Ej). reflexivity.
  - pose proof (Permutation_in _ (Permutation_sym P) (nth_error_In _ _ Ei)) as I. apply In_nth_error in I. destruct I as [j Ej]. exists j, cwd, x, dws, dsp, q, t. split; [exact Ej|]. split; [|exact R]. rewrite Ek, (Pl _ _ _ _ Ei), (Pl _ _ _ _ Ej). reflexivity.
Qed.

(** The texts that unblot prints, and the documents named for each. *)
Lemma outcomes_perm os os' : Permutation os os' -> forall t, Permutation (keys_with t (outcomes os)) (keys_with t (outcomes os')).
Proof.
  intros P t. unfold keys_with, outcomes. apply Permutation_map, filter_perm. rewrite <- !flat_map_concat_map. apply Permutation_flat_map, P.
Qed.
Lemma Forall2_perm {A B} (R : A -> B -> Prop) l l' : Permutation l l' -> forall os, Forall2 R l os -> exists os', Permutation os os' /\ Forall2 R l' os'.
Proof.
  induction 1 as [|x l l' P IH|x y l|l l' l'' P IH P' IH']; intros os X.
  - inversion X; subst. exists []. split; constructor.
  - inversion X as [|? o ? os1 R1 X1]; subst. destruct (IH os1 X1) as (os' & Po & X'). exists (o :: os'). split; [apply perm_skip, Po|constructor; assumption].
  - inversion X as [|? o ? os1 R1 X1]; subst. inversion X1 as [|? o2 ? os2 R2 X2]; subst. exists (o2 :: o :: os2). split; [apply perm_swap|repeat constructor; assumption].
  - destruct (IH os X) as (o1 & P1 & X1). destruct (IH' o1 X1) as (o2 & P2 & X2). exists o2. split; [exact (Permutation_trans P1 P2)|exact X2].
Qed.
Lemma Forall2_onto {A B C} (f : A -> B) (R : B -> C -> Prop) l os : Forall2 (fun x o => R (f x) o) l os -> Forall2 R (map f l) os.
Proof. intros X. induction X; cbn [map]; constructor; assumption. Qed.
Lemma Forall2_same {A B} (R : A -> B -> Prop) : (forall x o o', R x o -> R x o' -> o = o') -> forall l os os', Forall2 R l os -> Forall2 R l os' -> os = os'.
Proof. intros Fn l os os' X. revert os'. induction X as [|x o l os Rx X IH]; intros os' Y; inversion Y; subst; [reflexivity|]. f_equal; [eapply Fn; eassumption|auto]. Qed.
Lemma place_nth docs i p : nth_error docs i = Some p -> place_of docs (N.of_nat (Datatypes.S i)) = place p.
Proof. intros E. unfold place_of. replace (N.to_nat (N.of_nat (Datatypes.S i) - 1)) with i by lia. rewrite E. destruct p. reflexivity. Qed.
Lemma nodup_filter {A B} (f : A * B -> bool) g : NoDup (map fst g) -> NoDup (map fst (filter f g)).
Proof.
  induction g as [|p g IH]; cbn [map filter]; intros N0; [constructor|]. inversion N0 as [|? ? N1 N2]; subst. destruct (f p); cbn [map]; [|auto]. constructor; [|auto].
  intros I. apply N1. apply in_map_iff in I. destruct I as (x & <- & I). apply filter_In in I. apply in_map, I.
Qed.
Lemma groups_perm {B} (f : list B -> bool) (Kt Kt' : bytes -> list B) g g' :
  (forall l l', Permutation l l' -> f l = f l') -> NoDup (map fst g) -> NoDup (map fst g') ->
  (forall t l, In (t, l) g <-> l <> [] /\ l = Kt t) -> (forall t l, In (t, l) g' <-> l <> [] /\ l = Kt' t) -> (forall t, Permutation (Kt t) (Kt' t)) ->
  let h := filter (fun p => f (snd p)) g in let h' := filter (fun p => f (snd p)) g' in
  NoDup (map fst h) /\ Permutation (map fst h) (map fst h') /\ forall t l l', In (t, l) h -> In (t, l') h' -> Permutation l l' /\ ((forall t, Kt t = Kt' t) -> l = l').
Proof.
  intros Ff N0 N0' X X' Pk h h'. split; [apply nodup_filter, N0|]. split.
  - apply NoDup_Permutation; [apply nodup_filter, N0|apply nodup_filter, N0'|]. intros t. split; intros I; apply in_map_iff in I; destruct I as ([t0 l] & <- & I); cbn [fst]; apply filter_In in I; destruct I as [I Fl]; cbn [snd] in Fl.
    + apply X in I. destruct I as [Nl ->]. apply (in_map fst h' (t0, Kt' t0)). apply filter_In. cbn [snd]. rewrite <- (Ff _ _ (Pk t0)). split; [|exact Fl]. apply X'. split; [|reflexivity].
      intros Z. apply Nl, Permutation_nil. rewrite <- Z. apply Permutation_sym, Pk.
    + apply X' in I. destruct I as [Nl ->]. apply (in_map fst h (t0, Kt t0)). apply filter_In. cbn [snd]. rewrite (Ff _ _ (Pk t0)). split; [|exact Fl]. apply X. split; [|reflexivity].
      intros Z. apply Nl, Permutation_nil. rewrite <- Z. apply Pk.
  - intros t l l' I I'. apply filter_In in I, I'. destruct I as [I _], I' as [I' _]. apply X in I. apply X' in I'. destruct I as [_ ->], I' as [_ ->]. split; [apply Pk|auto].
Qed.
Lemma filter_all {A} (g : list A) : filter (fun _ => true) g = g.
Proof. induction g as [|x g IH]; cbn [filter]; congruence. Qed.
Theorem C113_unblot : forall u c c' k m n sorted sorted', cfg_full c k m n -> cfg_full c' k m n -> sorts sorted -> sorts sorted' ->
  forall ss ss' dk dk', history u c ss dk -> history u c' ss' dk' -> docs_fit (all_docs ss) -> Permutation (all_docs ss) (all_docs ss') ->
  exists ix ix', open_index sorted dk = Ok ix /\ open_index sorted' dk' = Ok ix' /\
  forall grow grow' fuel fuel', (List.length (all_docs ss) < fuel)%nat -> (List.length (all_docs ss) < fuel')%nat ->
  forall fs, (forall i, (i < List.length (all_docs ss))%nat -> readable fs (place_of (all_docs ss) (N.of_nat (Datatypes.S i)))) -> forall all q,
  exists g g', unblot u fs grow ix fuel all q = Ok g /\ unblot u fs grow' ix' fuel' all q = Ok g' /\
    NoDup (map fst g) /\ Permutation (map fst g) (map fst g') /\
    forall t l l', In (t, l) g -> In (t, l') g' -> Permutation l l' /\ (all_docs ss = all_docs ss' -> l = l').
Proof.
  intros u c c' k m n sorted sorted' F F' S S' ss ss' dk dk' Hi Hi' Fit P. destruct (words_total u (all_docs ss)) as [wss W]. destruct (words_perm _ _ _ P wss W) as (wss' & W' & Pc).
  pose proof (fit_perm _ _ P Fit) as Fit'.
  destruct (C26_opened u c k m n sorted F S ss dk wss Hi Fit W) as (ix & E & I). destruct (C26_opened u c' k m n sorted' F' S' ss' dk' wss' Hi' Fit' W') as (ix' & E' & I').
  exists ix, ix'. split; [exact E|]. split; [exact E'|]. intros grow grow' fuel fuel' L L' fs R1 all q. rewrite (Permutation_length P) in L'.
  assert (R2 : forall i, (i < List.length (all_docs ss'))%nat -> readable fs (place_of (all_docs ss') (N.of_nat (Datatypes.S i)))).
  { intros i Li. destruct (nth_error (all_docs ss') i) as [p|] eqn:Ep; [|apply nth_error_None in Ep; lia]. rewrite (place_nth _ _ _ Ep). pose proof (Permutation_in _ (Permutation_sym P) (nth_error_In _ _ Ep)) as J. apply In_nth_error in J. destruct J as [j Ej].
    rewrite <- (place_nth _ _ _ Ej). apply R1. apply nth_error_Some. congruence. }
  destruct (N.lt_ge_cases q (N.of_nat n * 65536)) as [Lq|Lq].
  2:{ exists [], []. split; [exact (unblot_large u c k m n sorted F S ss dk ix grow fs fuel q all Hi Fit E L R1 Lq)|].
      split; [exact (unblot_large u c' k m n sorted' F' S' ss' dk' ix' grow' fs fuel' q all Hi' Fit' E' L' R2 Lq)|]. split; [constructor|]. split; [constructor|]. intros t l l' []. }
  destruct (unblot_history u c k m n sorted F S ss dk ix grow fs fuel q wss Hi Fit W E L R1 Lq) as (os & g & Fo & U1 & U2 & ND & X).
  destruct (unblot_history u c' k m n sorted' F' S' ss' dk' ix' grow' fs fuel' q wss' Hi' Fit' W' E' L' R2 Lq) as (os' & g' & Fo' & U1' & U2' & ND' & X').
  apply (Forall2_onto (place_of (all_docs ss)) (fun key o => outcome (word_hash u) k m n (word_char u) fs q key o)) in Fo. rewrite (carriers_places _ _ _ _ _ _ _ _ W) in Fo.
  apply (Forall2_onto (place_of (all_docs ss')) (fun key o => outcome (word_hash u) k m n (word_char u) fs q key o)) in Fo'. rewrite (carriers_places _ _ _ _ _ _ _ _ W') in Fo'.
  destruct (Forall2_perm _ _ _ (having_perm (word_hash u) k m n _ _ _ _ q Pc) _ Fo) as (os2 & Po & Fo2).
  assert (os2 = os') as -> by (exact (Forall2_same _ (fun key o o' => outcome_fun u k m n fs q key o o') _ _ _ Fo2 Fo')).
  assert (Same : all_docs ss = all_docs ss' -> os = os').
  { intros A. rewrite <- A in W'. rewrite <- A, <- (words_of_fun u _ _ _ W W') in Fo'. exact (Forall2_same _ (fun key o o' => outcome_fun u k m n fs q key o o') _ _ _ Fo Fo'). }
  destruct all.
  - exists g, g'. split; [exact U1|]. split; [exact U1'|]. pose proof (groups_perm (fun _ => true) _ _ g g' (fun _ _ _ => eq_refl) ND ND' X X' (outcomes_perm os os' Po)) as (N1 & P1 & Q1).
    rewrite !filter_all in *. split; [exact N1|]. split; [exact P1|]. intros t l l' I1 I2. destruct (Q1 t l l' I1 I2) as [Q2 Q3]. split; [exact Q2|]. intros A. apply Q3. intros t0. rewrite (Same A). reflexivity.
  - eexists. eexists. split; [exact U2|]. split; [exact U2'|].
    pose proof (groups_perm (fun l => (2 <=? List.length l)%nat) _ _ g g' (fun l l' Pl => f_equal (Nat.leb 2) (Permutation_length Pl)) ND ND' X X' (outcomes_perm os os' Po)) as (N1 & P1 & Q1).
    split; [exact N1|]. split; [exact P1|]. intros t l l' I1 I2. destruct (Q1 t l l' I1 I2) as [Q2 Q3]. split; [exact Q2|]. intros A. apply Q3. intros t0. rewrite (Same A). reflexivity.
Qed.

(** Five documents added in one session, and the same five in another order in two; the second
    index lists the documents of one blot in the other order, so no more than a permutation
    can be said. *)
(** (The latest session first, as in [history].) *)
Definition wit_sessions : list (list (bytes * doc)) := [[wit_doc "4" wit_text2; wit_doc "3" wit_text1; wit_doc "2" wit_text1]; [wit_doc "5" wit_text2; wit_doc "1" wit_text1]].
Lemma wit_sessions_perm : Permutation (all_docs [wit_docs]) (all_docs wit_sessions).
Proof.
  unfold all_docs, wit_sessions, wit_docs. cbn [rev concat app]. set (a := wit_doc "1" wit_text1). set (b := wit_doc "2" wit_text1). set (c := wit_doc "3" wit_text1). set (d := wit_doc "4" wit_text2). set (e := wit_doc "5" wit_text2).
  change [a; b; c; d; e] with ([a; b; c; d] ++ [e]). apply (perm_trans (Permutation_app_comm _ _)). apply perm_skip, perm_skip.
  apply (perm_trans (perm_skip b (perm_swap d c []))), (perm_trans (perm_swap d b [c])), perm_skip, perm_swap.
Qed.
Example C113_example : default_config (bs "/") (bs "x") = Ok wit_config /\ cfg_full wit_config 1 10 2 /\
  docs_fit (all_docs [wit_docs]) /\ Permutation (all_docs [wit_docs]) (all_docs wit_sessions) /\
  forall u, (exists dk, history u wit_config [wit_docs] dk) /\ (exists dk, history u wit_config wit_sessions dk) /\
    forall sorted, sorts sorted -> forall dk dk', history u wit_config [wit_docs] dk -> history u wit_config wit_sessions dk' ->
    exists ix ix', open_index sorted dk = Ok ix /\ open_index sorted dk' = Ok ix' /\
    forall grow fuel, (5 < fuel)%nat -> exists ds ds', query_get grow ix fuel wit_blot2 None = Ok ds /\ query_get grow ix' fuel wit_blot2 None = Ok ds' /\
      docs_keys ds = [(bs "/4", 0, 22); (bs "/5", 0, 22)] /\ docs_keys ds' = [(bs "/5", 0, 22); (bs "/4", 0, 22)].
Proof.
  split; [exact wit_default|]. split; [exact wit_full|]. split; [exact wit_fit|]. split; [exact wit_sessions_perm|]. intros u.
  pose proof (fit_perm _ _ wit_sessions_perm wit_fit) as Fit'.
  split; [exact (C26_histories_exist u wit_config 1 10 2 wit_full ltac:(reflexivity) [wit_docs] ltac:(discriminate) wit_fit)|].
  split; [exact (C26_histories_exist u wit_config 1 10 2 wit_full ltac:(reflexivity) wit_sessions ltac:(discriminate) Fit')|].
  intros sorted S dk dk' Hi Hi'.
  assert (W' : words_of (word_char u) (all_docs wit_sessions) [wit_words2; wit_words1; wit_words2; wit_words1; wit_words1]).
  { pose proof (wit_words u) as W. unfold wit_docs, wit_wss in W. inversion W as [|a1 b1 t1 r1 A W1 e1 e2]; subst. inversion W1 as [|a2 b2 t2 r2 B W2 e1 e2]; subst. inversion W2 as [|a3 b3 t3 r3 C W3 e1 e2]; subst.
    inversion W3 as [|a4 b4 t4 r4 D W4 e1 e2]; subst. inversion W4 as [|a5 b5 t5 r5 E W5 e1 e2]; subst.
    unfold words_of, all_docs, wit_sessions. cbn [rev concat app]. constructor; [exact E|]. constructor; [exact A|]. constructor; [exact D|]. constructor; [exact C|]. constructor; [exact B|constructor]. }
  destruct (C26_query_is_exact u wit_config 1 10 2 sorted wit_full S _ dk _ Hi wit_fit (wit_words u)) as (ix & E & X).
  destruct (C26_query_is_exact u wit_config 1 10 2 sorted wit_full S _ dk' _ Hi' Fit' W') as (ix' & E' & X').
  exists ix, ix'. split; [exact E|]. split; [exact E'|]. intros grow fuel L.
  destruct (X grow wit_blot2 fuel L) as (ds & G & K). destruct (X' grow wit_blot2 fuel L) as (ds' & G' & K').
  exists ds, ds'. split; [exact G|]. split; [exact G'|]. change (wit_blot2 mod (N.of_nat 2 * 65536)) with wit_blot2 in K, K'. rewrite K, K'. split.
  - rewrite wit_carriers. vm_compute. reflexivity.
  - cbn [carriers]. rewrite !wit_has1, !wit_has2. vm_compute. reflexivity.
Qed.
(** The five documents are in their files, so that the hypothesis of [C113_unblot] holds too. *)
Example C113_unblot_example : forall i, (i < List.length (all_docs [wit_docs]))%nat -> readable like_files (place_of (all_docs [wit_docs]) (N.of_nat (Datatypes.S i))).
Proof.
  intros i Li. destruct (nth_error (all_docs [wit_docs]) i) as [[cwd x]|] eqn:Ei; [|apply nth_error_None in Ei; lia]. destruct (wit_place i cwd x Ei) as (S0 & Lx & If).
  right. exists (d_dat x). split; [exact If|]. rewrite (place_nth _ _ _ Ei). unfold place, fits32. cbn [fst snd]. rewrite S0. exact Lx.
Qed.
Print Assumptions C113_get.
Print Assumptions C113_inspect.
Print Assumptions C113_extract.
Print Assumptions C113_like.
Print Assumptions C113_unblot.
