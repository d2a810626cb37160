(** From documents to queries. *)
From Coq Require Import Permutation.
From Verif Require Import Model.Base Model.Utf8 Model.Token Model.Blotter Model.Post Model.Poster Model.Shatter Model.Shard Model.Dmd Model.Fnames Model.Conc Model.Config Model.Run Model.Index Model.Query Model.Session.
From Verif Require Import Spec.Text Spec.Fingerprint Spec.Configs Spec.Posting Spec.Postings Spec.Paths Spec.Reading Spec.Querying Spec.History.
From Verif Require Import Proof.Tactics Proof.VarintP Proof.TokenP Proof.BlotterP Proof.ShatterP Proof.IndexP2 Proof.DmdP Proof.FnamesP Proof.FnamesP2 Proof.PosterP Proof.ShardP Proof.ConcP Proof.ConcRun Proof.QueryP Proof.SessionP.
Local Open Scope N_scope.

Definition sumN (l : list N) : N := fold_right N.add 0 l.
Lemma sumN_app a b : sumN (a ++ b) = sumN a + sumN b.
Proof. unfold sumN. induction a as [|x a IH]; cbn [app fold_right]; [reflexivity|]. rewrite IH. lia. Qed.
Lemma sumN_bound l b : Forall (fun x => x <= b) l -> sumN l <= nlen l * b.
Proof. unfold nlen, sumN. induction 1 as [|x l H F IH]; cbn [length fold_right]; [lia|]. rewrite Nat2N.inj_succ, N.mul_succ_l. lia. Qed.
Lemma fold_sum l : forall t, t + sumN l < 18446744073709551616 -> fold_left (fun t c => u64 (t + c)) l t = t + sumN l.
Proof.
  unfold sumN. induction l as [|x l IH]; intros t B; cbn [fold_left fold_right] in *; [lia|].
  rewrite IH by (unfold u64; rewrite N.mod_small by lia; lia). unfold u64. rewrite N.mod_small by lia. lia.
Qed.
Lemma fold_sum_map {A} (f : A -> N) l : forall t, fold_left (fun t s => u64 (t + f s)) l t = fold_left (fun t c => u64 (t + c)) (map f l) t.
Proof. induction l as [|x l IH]; intros t; cbn [fold_left map]; auto. Qed.
Lemma sumN_add {A} (f g : A -> N) l : sumN (map (fun x => f x + g x) l) = sumN (map f l) + sumN (map g l).
Proof. unfold sumN. induction l as [|x l IH]; cbn [map fold_right]; [reflexivity|]. rewrite IH. lia. Qed.
Lemma sumN_concat ls : sumN (concat ls) = sumN (map sumN ls).
Proof. unfold sumN. induction ls as [|x ls IH]; [reflexivity|]. cbn [concat map fold_right]. rewrite <- IH. apply sumN_app. Qed.
Lemma sumN_ind {A} (f : A -> bool) l : sumN (map (fun x => if f x then 1 else 0) l) = nlen (filter f l).
Proof. unfold sumN, nlen. induction l as [|x l IH]; cbn [map fold_right filter]; [reflexivity|]. rewrite IH. destruct (f x); cbn [length]; lia. Qed.

(** All blots, shard by shard. *)
Definition all_q (n : nat) : list N := concat (map (fun s => map (fun b => N.of_nat b * N.of_nat n + N.of_nat s) (seq 0 num_slots)) (seq 0 n)).
Lemma split_unique n a s b t : (s < n)%nat -> (t < n)%nat -> N.of_nat a * N.of_nat n + N.of_nat s = N.of_nat b * N.of_nat n + N.of_nat t -> a = b /\ s = t.
Proof.
  intros Ls Lt E. assert (Z : N.of_nat n <> 0) by lia. assert (Ls' : N.of_nat s < N.of_nat n) by lia. assert (Lt' : N.of_nat t < N.of_nat n) by lia.
  destruct (N.div_mod_unique (N.of_nat n) (N.of_nat a) (N.of_nat b) (N.of_nat s) (N.of_nat t) Ls' Lt') as [A B]; [lia|]. lia.
Qed.
Lemma all_q_in n q : (0 < n)%nat -> (In q (all_q n) <-> q < N.of_nat n * 65536).
Proof.
  intros Hn. unfold all_q. rewrite in_concat. split.
  - intros (l & Hl & Hq). apply in_map_iff in Hl. destruct Hl as (s & <- & Hs). apply in_map_iff in Hq. destruct Hq as (b & <- & Hb).
    apply in_seq in Hs, Hb. assert (N.of_nat b <= 65535) by (unfold num_slots in Hb; lia).
    assert (N.of_nat b * N.of_nat n <= 65535 * N.of_nat n) by (apply N.mul_le_mono_r; assumption). lia.
  - intros L. assert (Z : N.of_nat n <> 0) by lia.
    exists (map (fun b => N.of_nat b * N.of_nat n + N.of_nat (N.to_nat (q mod N.of_nat n))) (seq 0 num_slots)). split.
    + apply in_map_iff. exists (N.to_nat (q mod N.of_nat n)). split; [reflexivity|]. apply in_seq. pose proof (N.mod_lt q (N.of_nat n) Z). lia.
    + apply in_map_iff. exists (N.to_nat (q / N.of_nat n)). rewrite !N2Nat.id. split; [rewrite N.mul_comm; symmetry; apply N.div_mod, Z|].
      apply in_seq. assert (X : q / N.of_nat n < 65536) by (apply N.div_lt_upper_bound; assumption). unfold num_slots. clear -X. revert X. generalize (q / N.of_nat n). intros; lia.
Qed.
Lemma nodup_concat_map {A B} (f : A -> list B) l : NoDup l -> (forall a, In a l -> NoDup (f a)) ->
  (forall a b x, In a l -> In b l -> In x (f a) -> In x (f b) -> a = b) -> NoDup (concat (map f l)).
Proof.
  induction l as [|a l IH]; intros D F X; [constructor|]. inversion D as [|? ? D1 D2]; subst. cbn [map concat].
  assert (R : NoDup (concat (map f l))).
  { apply IH; auto; [intros; apply F; right; assumption|]. intros b c x Hb Hc. apply X; right; assumption. }
  assert (Dj : forall x, In x (f a) -> ~ In x (concat (map f l))).
  { intros x Hx C. apply in_concat in C. destruct C as (y & Hy & Hx2). apply in_map_iff in Hy. destruct Hy as (b & <- & Hb).
    assert (a = b) by (eapply X; eauto; [left; reflexivity|right; exact Hb]). subst b. contradiction. }
  pose proof (F a (or_introl eq_refl)) as Fa. revert Dj Fa. generalize (f a). intros l0 Dj Fa. clear -R Dj Fa.
  induction Fa as [|x l0 N0 Fa IH]; [exact R|]. cbn [app]. constructor.
  - rewrite in_app_iff. intros [C|C]; [contradiction|]. apply (Dj x); [left; reflexivity|exact C].
  - apply IH. intros y Hy. apply Dj. right. exact Hy.
Qed.
Lemma all_q_nodup n : NoDup (all_q n).
Proof.
  unfold all_q. apply nodup_concat_map; [apply seq_NoDup| |].
  - intros s Hs. apply in_seq in Hs. apply FinFun.Injective_map_NoDup; [|apply seq_NoDup]. intros a b E. apply (split_unique n a s b s); auto; lia.
  - intros s t x Hs Ht Hx Hy. apply in_seq in Hs, Ht. apply in_map_iff in Hx, Hy. destruct Hx as (a & <- & _), Hy as (b & E & _).
    symmetry. apply (split_unique n b t a s); auto; lia.
Qed.
Lemma all_q_length n : length (all_q n) = (n * num_slots)%nat.
Proof.
  unfold all_q. assert (G : forall l, length (concat (map (fun s => map (fun b => N.of_nat b * N.of_nat n + N.of_nat s) (seq 0 num_slots)) l)) = (length l * num_slots)%nat).
  { induction l as [|s l IH]; [reflexivity|]. cbn [map concat length]. rewrite app_length, map_length, seq_length, IH. lia. }
  rewrite G, seq_length. reflexivity.
Qed.

Section P.
  Variables (H : bytes -> N) (k m n : nat).
  Hypothesis Hn : (0 < n)%nat.
  Lemma has_blot_pairs ws : nlen (filter (has_blot H k m n ws) (all_q n)) =
    nlen (nodup N.eq_dec (map (fun b => b mod (N.of_nat n * 65536)) (spec_blots H k m ws))).
  Proof.
    unfold nlen. f_equal. apply Permutation_length, NoDup_Permutation; [apply NoDup_filter, all_q_nodup|apply NoDup_nodup|].
    intros q. rewrite nodup_In, filter_In, all_q_in by exact Hn. unfold has_blot. rewrite existsb_exists, in_map_iff. split.
    - intros (_ & b & Hb & E). apply N.eqb_eq in E. eauto.
    - intros (b & <- & Hb). split; [apply N.mod_lt; lia|]. exists b. split; [exact Hb|apply N.eqb_refl].
  Qed.
  Lemma carriers_pairs : forall wss last, sumN (map (fun q => nlen (carriers H k m n last wss q)) (all_q n)) = pairs H k m n wss.
  Proof.
    induction wss as [|ws wss IH]; intros last; cbn [carriers pairs].
    - generalize (all_q n). induction l as [|x l IH]; [reflexivity|]. cbn [map sumN fold_right]. unfold sumN in IH. rewrite IH. reflexivity.
    - rewrite <- has_blot_pairs, <- sumN_ind, <- (IH (last + 1)), <- sumN_add. f_equal. apply map_ext. intros q.
      unfold nlen. rewrite app_length. destruct (has_blot H k m n ws q); cbn [length]; lia.
  Qed.
  Lemma blot_slot q : let Q := q mod (N.of_nat n * 65536) in
    N.of_nat (slot_of n q) * N.of_nat n + N.of_nat (shard_of n q) = Q.
  Proof.
    cbv zeta. unfold slot_of, shard_of. rewrite !N2Nat.id, N.mod_mul_r by lia. lia.
  Qed.
End P.

Section E.
  Variables (u : unicode) (c : config) (k m n : nat) (sorted : list N -> list nat).
  Hypothesis F : cfg_full c k m n.
  Hypothesis Hs : sorts sorted.
  Notation H := (word_hash u).
  Notation held wss := (held H k m n wss).

  Theorem opened ss dk wss : history u c ss dk -> docs_fit (all_docs ss) -> words_of (word_char u) (all_docs ss) wss ->
    exists ix, open_index sorted dk = Ok ix /\ index_ok ix n (held wss) (place_of (all_docs ss)).
  Proof.
    intros Hi Fit Ww. destruct F as [Ok_ Hn Hf].
    destruct (history_inv u c k m n Ok_ Hn Hf ss dk Hi Fit wss Ww) as (fn & fs & D).
    destruct (open_index_ok u c k m n Ok_ Hn sorted Hs _ wss fn fs dk D Ww Fit) as (ix & E & I & _). eauto.
  Qed.
  Theorem query_exact ss dk wss : history u c ss dk -> docs_fit (all_docs ss) -> words_of (word_char u) (all_docs ss) wss ->
    exists ix, open_index sorted dk = Ok ix /\ forall grow blot fuel, (length (all_docs ss) < fuel)%nat ->
      exists ds, query_get grow ix fuel blot None = Ok ds /\
        docs_keys ds = map (place_of (all_docs ss)) (carriers H k m n 0 wss (blot mod (N.of_nat n * 65536))).
  Proof.
    intros Hi Fit Ww. destruct (opened ss dk wss Hi Fit Ww) as (ix & E & I). exists ix. split; [exact E|]. intros grow blot fuel L.
    pose proof (io_pos _ _ _ _ I) as Hn. pose proof (words_of_len _ _ _ Ww) as Lw.
    destruct (get_unlimited grow ix _ n _ I blot fuel) as (ds & Eg & _ & El).
    { unfold History.held. pose proof (carriers_len H k m n (N.of_nat (slot_of n blot) * N.of_nat n + N.of_nat (shard_of n blot)) wss 0). lia. }
    exists ds. split; [exact Eg|]. unfold docs_keys. rewrite El, map_map. unfold History.held. rewrite blot_slot by exact Hn.
    apply map_ext. intros d. unfold key_doc, doc_key. destruct (place_of (all_docs ss) d) as [[p a] b]. reflexivity.
  Qed.
  Lemma carriers_nth q : forall wss last i ws, nth_error wss i = Some ws -> has_blot H k m n ws q = true ->
    In (last + 1 + N.of_nat i) (carriers H k m n last wss q).
  Proof.
    induction wss as [|w wss IH]; intros last [|i] ws E B; cbn [nth_error carriers] in *; try discriminate.
    - assert (w = ws) as -> by congruence. rewrite B. left. lia.
    - apply in_or_app. right. replace (last + 1 + N.of_nat (S i)) with (last + 1 + 1 + N.of_nat i) by lia. eauto.
  Qed.
  (** Copied text comes back from a query. *)
  Theorem copied_text_found ss dk : history u c ss dk -> docs_fit (all_docs ss) ->
    exists ix, open_index sorted dk = Ok ix /\
    forall i1 i2 cwd1 cwd2 d1 d2 a1 x1 b1 a2 x2 b2 run, length run = (k * m)%nat ->
      nth_error (all_docs ss) i1 = Some (cwd1, d1) -> nth_error (all_docs ss) i2 = Some (cwd2, d2) ->
      doc_words (word_char u) (d_dat d1) (a1 ++ x1 :: run ++ b1) ->
      doc_words (word_char u) (d_dat d2) (a2 ++ x2 :: run ++ b2) ->
      exists blot, forall grow fuel, (length (all_docs ss) < fuel)%nat ->
        exists ds, query_get grow ix fuel blot None = Ok ds /\
          In (show_abs (spec_abs cwd1 (d_path d1)), d_start d1, d_end d1) (docs_keys ds) /\
          In (show_abs (spec_abs cwd2 (d_path d2)), d_start d2, d_end d2) (docs_keys ds).
  Proof.
    intros Hi Fit. destruct (words_total u (all_docs ss)) as [wss Ww].
    destruct (query_exact ss dk wss Hi Fit Ww) as (ix & E & Q). exists ix. split; [exact E|].
    intros i1 i2 cwd1 cwd2 d1 d2 a1 x1 b1 a2 x2 b2 run L E1 E2 W1 W2.
    destruct F as [Ok_ _ _]. destruct (shared_run H k m n a1 x1 run b1 a2 x2 b2 (co_k _ _ _ _ Ok_) (co_m _ _ _ _ Ok_) L) as (q & Q1 & Q2 & _).
    exists q. intros grow fuel Lf. destruct (Q grow q fuel Lf) as (ds & Eg & Ed). exists ds. split; [exact Eg|]. rewrite Ed.
    assert (G : forall i cwd d ws, nth_error (all_docs ss) i = Some (cwd, d) -> doc_words (word_char u) (d_dat d) ws -> In q (spec_blots H k m ws) ->
      In (show_abs (spec_abs cwd (d_path d)), d_start d, d_end d) (map (place_of (all_docs ss)) (carriers H k m n 0 wss (q mod (N.of_nat n * 65536))))).
    { intros i cwd d ws Ei Wi Hq. apply in_map_iff. exists (0 + 1 + N.of_nat i). split.
      - unfold place_of. replace (N.to_nat (0 + 1 + N.of_nat i - 1)) with i by lia. rewrite Ei. reflexivity.
      - assert (Ew : nth_error wss i = Some ws).
        { clear -Ww Ei Wi. revert i Ei. induction Ww as [|p w l l' A Fa IH]; intros [|i] Ei; cbn [nth_error] in *; try discriminate; [|auto].
          assert (p = (cwd, d)) as -> by congruence. cbn [snd] in A. f_equal. eapply doc_words_fun; eauto. }
        eapply carriers_nth; [exact Ew|]. unfold has_blot. apply existsb_exists. exists q. split; [exact Hq|apply N.eqb_refl]. }
    split; eauto.
  Qed.
  Theorem stats_count ss dk wss : history u c ss dk -> docs_fit (all_docs ss) -> words_of (word_char u) (all_docs ss) wss ->
    exists ix, open_index sorted dk = Ok ix /\ index_stats ix =
      MkStats (1 + nlen (all_docs ss)) (nlen (tree_nodes (all_docs ss))) (pairs H k m n wss) (N.of_nat n * 65536).
  Proof.
    intros Hi Fit Ww. destruct F as [Ok_ Hn Hf].
    destruct (history_inv u c k m n Ok_ Hn Hf ss dk Hi Fit wss Ww) as (fn & fs & D).
    destruct (open_index_ok u c k m n Ok_ Hn sorted Hs _ wss fn fs dk D Ww Fit) as (ix & E & I & _ & Ed & Wf & Sk & Lc).
    exists ix. split; [exact E|]. unfold index_stats. rewrite Ed, dmd_num_docs_file.
    pose proof (io_pos _ _ _ _ I) as Hp. pose proof (io_len _ _ _ _ I) as Ln.
    assert (E1 : nlen fs = nlen (all_docs ss)) by (unfold nlen; f_equal; apply (recs_len _ _ _ (di_recs _ _ _ _ _ _ _ _ _ _ D))).
    assert (E2 : nlen (ix_fnames ix) = nlen (tree_nodes (all_docs ss))).
    { assert (Ef : nlen (ix_fnames ix) = nlen fn) by (unfold nlen; rewrite <- (skel_length (ix_fnames ix)), Sk, skel_length; reflexivity).
      rewrite Ef. apply nodes_count; [apply (di_wf _ _ _ _ _ _ _ _ _ _ D)|]. intros q. split.
      - intros [->|(p & suf & Hp' & Es)]; [exists 0; constructor|].
        assert (X : exists i, is_path fn i (tree_path p)).
        { pose proof (di_recs _ _ _ _ _ _ _ _ _ _ D) as R. clear -R Hp'. induction R as [|f p' l l' (_ & _ & A) R IH]; [destruct Hp'|].
          destruct Hp' as [->|Hp']; [|auto]. rewrite tree_path_parts. eauto. }
        destruct X as [i Hi']. rewrite Es in Hi'. eapply is_path_app_inv, Hi'.
      - intros [i Hi']. eapply (di_nodes _ _ _ _ _ _ _ _ _ _ D), Hi'. }
    assert (E4 : u64 (65536 * nlen (ix_shards ix)) = N.of_nat n * 65536) by (unfold u64, nlen; rewrite Ln, N.mod_small; lia).
    assert (Cn : forall s si, nth_error (ix_shards ix) s = Some si -> si_counts si = map (fun b => nlen (held wss s b)) (seq 0 num_slots)).
    { intros s si Es. apply nth_ext with (d := 0) (d' := nlen (held wss s 0)).
      - rewrite map_length, seq_length. rewrite Forall_forall in Lc. apply Lc. eapply nth_error_In, Es.
      - intros b Lb. rewrite Forall_forall in Lc. rewrite (Lc si) in Lb by (eapply nth_error_In, Es).
        rewrite (map_nth (fun b => nlen (held wss s b))), seq_nth by exact Lb. apply (io_reads _ _ _ _ I s si Es b Lb). }
    assert (Bd : sumN (map (fun q => nlen (carriers H k m n 0 wss q)) (all_q n)) < 18446744073709551616).
    { eapply N.le_lt_trans; [apply (sumN_bound _ 4294967295)|].
      - apply Forall_forall. intros x Hx. apply in_map_iff in Hx. destruct Hx as (q & <- & _).
        pose proof (carriers_len H k m n q wss 0). pose proof (words_of_len _ _ _ Ww). pose proof (df_len _ Fit) as L. change (2 ^ 32) with 4294967296 in L. unfold nlen in *. lia.
      - unfold nlen. rewrite map_length, all_q_length. unfold num_slots. lia. }
    assert (E3 : fold_left (fun t s => u64 (t + shard_num_posts s)) (ix_shards ix) 0 = pairs H k m n wss).
    { rewrite <- (carriers_pairs H k m n Hp wss 0). unfold all_q in *. rewrite concat_map, map_map, sumN_concat, map_map in *.
      rewrite fold_sum_map.
      assert (Em : map shard_num_posts (ix_shards ix) = map (fun s => sumN (map (fun q => nlen (carriers H k m n 0 wss q)) (map (fun b => N.of_nat b * N.of_nat n + N.of_nat s) (seq 0 num_slots)))) (seq 0 n)).
      { apply nth_error_ext'. intros s. rewrite !nth_error_map. destruct (Nat.lt_ge_cases s n) as [L|L].
        - destruct (nth_shard (fun x => x) ix _ n _ I s L) as [si Es]. rewrite Es. rewrite nth_error_nth' with (d := 0%nat) by (rewrite seq_length; exact L).
          rewrite seq_nth by exact L. cbn [option_map Nat.add]. f_equal. unfold shard_num_posts. rewrite (Cn s si Es), map_map. unfold History.held.
          rewrite fold_sum; [reflexivity|]. eapply N.le_lt_trans; [|exact Bd].
          rewrite N.add_0_l. clear -L.
          assert (G : forall (f : nat -> N) l, In s l -> f s <= sumN (map f l)).
          { intros f. unfold sumN. induction l as [|y l IH]; intros C; [destruct C|]. cbn [map fold_right]. destruct C as [->|C]; [lia|]. apply IH in C. lia. }
          pose proof (G (fun s => sumN (map (fun q => nlen (carriers H k m n 0 wss q)) (map (fun b => N.of_nat b * N.of_nat n + N.of_nat s) (seq 0 num_slots)))) (seq 0 n)) as G2.
          cbv beta in G2. rewrite map_map in G2. apply G2, in_seq. lia.
        - assert (nth_error (ix_shards ix) s = None) as -> by (apply nth_error_None; lia).
          assert (nth_error (seq 0 n) s = None) as -> by (apply nth_error_None; rewrite seq_length; lia). reflexivity. }
      rewrite Em, fold_sum by exact Bd. lia. }
    rewrite E1, E2, E3, E4. reflexivity.
  Qed.
  (** The ids given out by doc2id are those the workers file the documents under: one after
      another from the last one before the session. *)
  Theorem session_ids_agree : (forall x ws docs, create_indexer c = Ok (x, ws) -> docs_fit docs ->
    adder_last (fst (x_dmds x)) = 0 /\ exists fn dm, doc_ids (x_fnames x) (x_dmds x) docs = Ok (fn, dm, map (fun i => adder_last (fst (x_dmds x)) + 1 + N.of_nat i) (seq 0 (length docs)))) /\
    (forall ss dk x ws docs, history u c ss dk -> open_indexer dk = Ok (x, ws) -> docs_fit (all_docs ss ++ docs) ->
    adder_last (fst (x_dmds x)) = nlen (all_docs ss) /\ exists fn dm, doc_ids (x_fnames x) (x_dmds x) docs = Ok (fn, dm, map (fun i => adder_last (fst (x_dmds x)) + 1 + N.of_nat i) (seq 0 (length docs)))).
  Proof.
    destruct F as [Ok_ Hn Hf].
    assert (G : forall l a b c, l = N.of_nat a -> map (fun i => l + 1 + N.of_nat i) (seq b c) = map N.of_nat (seq (S a + b) c)).
    { intros l a b e ->. revert b. induction e as [|e IH]; intros b; cbn [seq map]; [reflexivity|]. rewrite IH.
      replace (S (S a + b))%nat with (S a + S b)%nat by lia. f_equal. lia. }
    split.
    - intros x ws docs Ex Fit. destruct (create_start u c k m n Ok_ Hn Hf) as (x' & ws' & Ex' & I). rewrite Ex in Ex'.
      assert (x' = x) as -> by congruence. assert (ws' = ws) as -> by congruence. destruct (words_total u docs) as [w W].
      destruct (session_inv u c k m n Ok_ Hn _ x ws [] [] [] docs w Ex I Fit ltac:(constructor) W) as (_ & _ & (fn & dm & E) & L).
      split; [exact L|]. exists fn, dm. rewrite E, (G _ 0%nat 0%nat _ L). reflexivity.
    - intros ss dk x ws docs Hi Ex Fit. destruct (words_total u docs) as [w W]. destruct (words_total u (all_docs ss)) as [w0 W0].
      destruct (history_inv u c k m n Ok_ Hn Hf ss dk Hi (fit_app _ _ Fit) w0 W0) as (fn0 & fs0 & D).
      pose proof (df_len _ (fit_app _ _ Fit)) as Ld. change (2 ^ 32) with 4294967296 in Ld.
      destruct (open_start u c k m n Ok_ Hn Hf _ _ _ _ _ D ltac:(lia)) as (x' & ws' & Ex' & I). rewrite Ex in Ex'.
      assert (x' = x) as -> by congruence. assert (ws' = ws) as -> by congruence.
      destruct (session_inv u c k m n Ok_ Hn _ x ws _ _ _ docs w Ex I Fit W0 W) as (_ & _ & (fn & dm & E) & L).
      split; [exact L|]. exists fn, dm. rewrite E, (G _ _ 0%nat _ L), Nat.add_0_r. reflexivity.
  Qed.
End E.
