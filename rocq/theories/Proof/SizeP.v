(** The sizes of the files of an index. *)
From Coq Require Import Permutation Lia.
From Verif Require Import Model.Base Model.Utf8 Model.Token Model.Varint Model.Blotter Model.Post Model.Poster Model.Shatter Model.Shard Model.Dmd Model.Fnames Model.Conc Model.Config Model.Run Model.Index Model.Query Model.Session.
From Verif Require Import Spec.Text Spec.Fingerprint Spec.Configs Spec.Posting Spec.Postings Spec.Paths Spec.Reading Spec.Querying Spec.History Spec.Size.
From Verif Require Import Proof.Tactics Proof.VarintP Proof.TokenP Proof.BlotterP Proof.ShatterP Proof.IndexP2 Proof.DmdP Proof.FnamesP Proof.FnamesP2 Proof.PosterP Proof.ShardP Proof.ConcP Proof.ConcRun Proof.QueryP Proof.SessionP Proof.SessionP2.
Local Open Scope N_scope.

(** * The posting file *)
Lemma put_varint_short z b n : (0 <= z < b)%Z -> (b <= 9223372036854775808)%Z -> (Z.to_N (2 * b) <= 2 ^ (7 * N.of_nat (S n)))%N -> (length (put_varint z) <= S n)%nat.
Proof.
  intros H B L. unfold put_varint, put_uvarint. apply put_uvarint_len_pow. eapply N.lt_le_trans; [|exact L]. rewrite zigzag_nonneg by lia. lia.
Qed.
Lemma log_size_tight log : log_ok log -> (log_count log <= log_size log <= 15 * log_count log)%nat.
Proof.
  induction log as [|[s ds] r IH]; intros H; [cbn; lia|]. inv H.
  destruct H2 as (Hne & Hd & Hl). cbn [snd] in *.
  unfold log_count in *. cbn [log_size map snd concat]. rewrite app_length.
  specialize (IH H3). unfold chunk_len, chunk_hdr.
  assert (length (put_varint (Z.of_nat (length (payload ds) + 8))) <= 2)%nat.
  { apply (put_varint_short _ 525); [lia|lia|]. vm_compute. discriminate. }
  pose proof (payload_length_le ds Hd). pose proof (payload_length_ge ds). destruct ds; [congruence|]. cbn [length] in *. lia.
Qed.
Lemma payload_empty ds : payload ds = [] -> ds = [].
Proof. intros E. pose proof (payload_length_ge ds) as L. rewrite E in L. destruct ds; [reflexivity|cbn [length] in L; lia]. Qed.

Lemma posting_size x log c : shard_inv x log c -> flushed x ->
  sum_to num_slots (fun s => nlen (c s)) <= nlen (x_file x) <= 15 * sum_to num_slots (fun s => nlen (c s)).
Proof.
  intros (I1 & I2 & I3 & I4 & I5) F.
  assert (E : N.of_nat (log_count log) = sum_to num_slots (fun s => nlen (c s))).
  { rewrite (log_count_sum num_slots log I4). apply sum_to_ext. intros s Hs.
    destruct (nth_error (x_ind x) s) as [p|] eqn:E; [|apply nth_error_None in E; lia].
    destruct (I5 s p E) as (_ & _ & _ & _ & _ & pend & P1 & _ & _ & P2).
    unfold flushed in F. rewrite Forall_forall in F. rewrite (F p (nth_error_In _ _ E)) in P1. symmetry in P1. apply payload_empty in P1. subst pend.
    rewrite app_nil_r in P2. unfold nlen. rewrite <- P2, sums_length. reflexivity. }
  rewrite <- E. clear E. rewrite I2. unfold nlen. rewrite render_length. pose proof (log_size_tight log I3). lia.
Qed.

(** * The table *)
Lemma entry_size p : p_total p < 4294967296 -> (6 <= length (concat (iix_entry_writes p)) <= 19)%nat.
Proof.
  intros H. unfold iix_entry_writes. cbn [concat]. rewrite !app_length. cbn [length].
  pose proof (put_varint_len (p_head p)). pose proof (put_varint_nonempty (p_head p)). pose proof (put_varint_nonempty (Z.of_N (p_total p))).
  assert (length (put_varint (Z.of_N (p_total p))) <= 5)%nat.
  { apply (put_varint_short _ 4294967296); [lia|lia|]. vm_compute. discriminate. }
  assert (length (put_be32 (p_current p)) = 4%nat) by reflexivity. lia.
Qed.
Lemma table_size ps : Forall table_ok ps -> nlen ps * 6 <= nlen (iix_bytes ps) <= nlen ps * 19.
Proof.
  unfold nlen. induction 1 as [|p ps H F IH]; [cbn; lia|]. rewrite iix_bytes_cons, app_length. cbn [length].
  destruct H as (_ & H & _). pose proof (entry_size p ltac:(lia)) as G. generalize dependent (length (concat (iix_entry_writes p))). intros. lia.
Qed.

(** * The names *)
Lemma names_file d docs : wf d -> (forall q, node_of docs q <-> exists i, is_path d i q) ->
  names_size docs + 2 * nlen (tree_nodes docs) + 1 <= nlen (fn_write d) <= names_size docs + 10 * nlen (tree_nodes docs) + 5.
Proof.
  intros W Nq. rewrite <- (nodes_count d docs W Nq).
  destruct (all_paths d W (length d) (le_n _)) as [P F].
  assert (In1 : forall q, In q P <-> exists i, is_path d i q).
  { intros q. split.
    - intros Hq. clear W Nq. induction F as [|i x s P Hx F IH]; [destruct Hq|]. destruct Hq as [->|Hq]; [eauto|auto].
    - intros [i Hi]. pose proof (is_path_lt _ _ _ W Hi) as L. unfold nlen in L.
      assert (Hs : In (N.to_nat i) (seq 0 (length d))) by (apply in_seq; lia).
      clear Nq L. revert Hs. induction F as [|j x s P Hx F IH]; intros Hs; [destruct Hs|]. destruct Hs as [->|Hs]; [|right; auto].
      left. rewrite N2Nat.id in Hx. eapply is_path_fun; eauto. }
  assert (Nd : NoDup P).
  { assert (Ns : NoDup (seq 0 (length d))) by apply seq_NoDup. clear In1 Nq. induction F as [|j x s P Hx F IH]; [constructor|].
    inversion Ns as [|? ? N1 N2]; subst. constructor; [|auto]. intros C. apply N1. clear IH N1 N2 Ns.
    induction F as [|i y s P Hy F IH]; [destruct C|]. destruct C as [->|C]; [|right; auto]. left.
    pose proof (is_path_inj d W _ _ Hx _ Hy). lia. }
  assert (Pm : Permutation P (tree_nodes docs)).
  { apply NoDup_Permutation; [exact Nd|apply NoDup_nodup|]. intros q. rewrite In1, in_tree_nodes, Nq. reflexivity. }
  assert (Ts : forall a b : list bytes, Permutation a b -> total_size a = total_size b).
  { unfold total_size. induction 1; cbn [fold_right]; lia. }
  assert (En : names_size docs = total_size (map n_name d)).
  { unfold names_size. rewrite <- (Ts _ _ (Permutation_map _ Pm)). f_equal.
    assert (G : forall l P, (forall i, In i l -> (i < length d)%nat) -> Forall2 (fun i q => is_path d (N.of_nat i) q) l P -> map (fun q => last q []) P = map (fun i => n_name (nth i d (MkFname 0 [] []))) l).
    { intros l P' B F'. induction F' as [|i q l P' Hq F' IH]; [reflexivity|]. cbn [map]. rewrite IH by (intros; apply B; right; assumption). f_equal.
      inversion Hq as [E1 E2|i' nd cs Hi Hn Hp E1 E2]; subst.
      - assert (i = 0%nat) as -> by lia. destruct (wf_root d W) as (nd & A & _ & N0). unfold at_ in A. cbn [N.to_nat] in A.
        rewrite (nth_error_nth d 0 _ A), N0. reflexivity.
      - rewrite last_last. unfold at_ in Hn. rewrite Nat2N.id in Hn. rewrite (nth_error_nth d i _ Hn). reflexivity. }
    rewrite (G (seq 0 (length d)) P); [|intros i Hi; apply in_seq in Hi; lia|exact F]. rewrite <- (map_map (fun i => nth i d _) n_name). f_equal.
    clear. apply nth_error_ext'. intros i. rewrite nth_error_map. destruct (Nat.lt_ge_cases i (length d)) as [L|L].
    - rewrite nth_error_nth' with (d := 0%nat) by (rewrite seq_length; exact L). rewrite seq_nth by exact L. cbn [option_map Nat.add].
      symmetry. apply nth_error_nth'. exact L.
    - assert (nth_error d i = None) as -> by (apply nth_error_None; lia).
      assert (nth_error (seq 0 (length d)) i = None) as -> by (apply nth_error_None; rewrite seq_length; lia). reflexivity. }
  rewrite En. clear En Pm Nd In1 F P Nq.
  assert (B : Forall (fun nd => n_parent nd < 4294967296) d).
  { apply Forall_forall. intros nd Hn. apply In_nth_error in Hn. destruct Hn as [i Hi]. pose proof (wf_size d W) as Sz.
    assert (Li : (i < length d)%nat) by (apply nth_error_Some; congruence).
    destruct i as [|i].
    - destruct (wf_root d W) as (nd' & A & P0 & _). change (nth_error d 0 = Some nd') in A. assert (nd' = nd) as -> by congruence. lia.
    - pose proof (wf_parent d W (N.of_nat (S i)) nd ltac:(lia)) as Q. unfold at_ in Q. rewrite Nat2N.id in Q. specialize (Q Hi). unfold nlen in Sz. lia. }
  assert (Ew : nlen (fn_write d) = N.of_nat (length (put_uvarint (u32 (nlen d)))) + N.of_nat (length (concat (concat (map fname_writes d))))).
  { unfold fn_write, fn_writes. cbn [concat]. unfold nlen at 1. rewrite app_length. lia. }
  rewrite Ew. clear Ew.
  assert (H32 : u32 (nlen d) < 4294967296) by (unfold u32; apply N.mod_lt; discriminate).
  pose proof (put_uvarint_len32 _ H32) as L1. pose proof (put_uvarint_nonempty (u32 (nlen d))) as L2.
  assert (G : total_size (map n_name d) + 2 * nlen d <= N.of_nat (length (concat (concat (map fname_writes d)))) <= total_size (map n_name d) + 10 * nlen d).
  { clear -B. unfold total_size, nlen. induction B as [|nd d Hn B IH]; [cbn; lia|]. cbn [map concat fold_right]. rewrite concat_app, app_length. cbn [length].
    unfold fname_writes at 1 3. cbn [concat]. rewrite !app_length. cbn [length].
    assert (H32 : u32 (nlen (n_name nd)) < 4294967296) by (unfold u32; apply N.mod_lt; discriminate).
    pose proof (put_uvarint_len32 _ H32) as L1. pose proof (put_uvarint_nonempty (u32 (nlen (n_name nd)))) as L2.
    pose proof (put_uvarint_len32 _ Hn) as L3. pose proof (put_uvarint_nonempty (n_parent nd)) as L4.
    unfold nlen in *. lia. }
  lia.
Qed.

(** * Words *)
Lemma utf8_len r : (1 <= length (utf8 r))%nat.
Proof. unfold utf8. destruct (_ <? _); [cbn; lia|]. destruct (_ <? _); [cbn; lia|]. destruct (_ <? _); cbn; lia. Qed.
Lemma utf8s_len rs : (length rs <= length (utf8s rs))%nat.
Proof. unfold utf8s. induction rs as [|r rs IH]; [cbn; lia|]. cbn [map concat length]. rewrite app_length. pose proof (utf8_len r). lia. Qed.
(** Runs alternate, so at most every other one is a word. *)
Lemma words_half cls rs : (2 * length (words cls rs) <= S (length rs))%nat.
Proof.
  unfold words. rewrite map_length.
  assert (G : (2 * length (filter fst (runs cls rs)) <= length rs + match runs cls rs with (true, _) :: _ => 1 | _ => 0 end)%nat).
  { induction rs as [|r rs IH]; [cbn; lia|]. cbn [runs]. destruct (runs cls rs) as [|[b run] rest].
    - cbn [filter fst length]. destruct (cls r); cbn [filter fst length]; lia.
    - destruct (Bool.eqb b (cls r)) eqn:E.
      + apply Bool.eqb_prop in E. subst b. cbn [filter fst] in *. destruct (cls r); cbn [length] in *; lia.
      + apply Bool.eqb_false_iff in E. cbn [filter fst] in *. destruct b, (cls r); try congruence; cbn [length] in *; lia. }
  destruct (runs cls rs) as [|[[] ?] ?]; lia.
Qed.
Lemma doc_words_half cls d ws : doc_words cls d ws -> 2 * nlen ws <= nlen d.
Proof.
  unfold nlen. intros [(rs & (_ & ->) & ->)|(_ & ->)]; [|cbn; lia].
  pose proof (utf8s_len rs) as L. destruct rs as [|r rs] using rev_ind; [cbn; lia|]. clear IHrs.
  rewrite removelast_last. pose proof (words_half cls rs) as W. rewrite app_length in L. cbn [length] in L. lia.
Qed.
Lemma nodup_len {A} (dec : forall x y : A, {x = y} + {x <> y}) l : (length (nodup dec l) <= length l)%nat.
Proof. induction l as [|x l IH]; [cbn; lia|]. cbn [nodup]. destruct (in_dec dec x l); cbn [length]; lia. Qed.
Lemma pairs_text H k m n cls docs wss : words_of cls docs wss -> 2 * pairs H k m n wss <= text_size docs.
Proof.
  unfold text_size, total_size. induction 1 as [|p ws docs wss E F IH]; [cbn; lia|]. cbn [pairs map fold_right].
  apply doc_words_half in E.
  assert (L : nlen (nodup N.eq_dec (map (fun b => b mod (N.of_nat n * 65536)) (spec_blots H k m ws))) <= nlen ws).
  { unfold nlen. pose proof (nodup_len N.eq_dec (map (fun b => b mod (N.of_nat n * 65536)) (spec_blots H k m ws))) as L.
    rewrite map_length in L. unfold spec_blots in L at 2. rewrite map_length, seq_length in L. lia. }
  generalize dependent (nlen (nodup N.eq_dec (map (fun b => b mod (N.of_nat n * 65536)) (spec_blots H k m ws)))). intros. lia.
Qed.

(** * The index *)
Lemma sum_to_list n f : sum_to n f = sumN (map f (seq 0 n)).
Proof.
  induction n as [|n IH]; [reflexivity|]. rewrite seq_S, map_app, sumN_app. cbn [sum_to map]. rewrite IH. unfold sumN at 3. cbn [fold_right Nat.add]. lia.
Qed.
Lemma sums_between (f : nat -> N) (l : list bytes) : forall i, (forall j x, nth_error l j = Some x -> f (i + j)%nat <= nlen x <= 15 * f (i + j)%nat) ->
  sumN (map f (seq i (length l))) <= total_size l <= 15 * sumN (map f (seq i (length l))).
Proof.
  unfold sumN, total_size. induction l as [|x l IH]; intros i B; [cbn; lia|]. cbn [length seq map fold_right].
  pose proof (B 0%nat x eq_refl) as B0. rewrite Nat.add_0_r in B0.
  specialize (IH (S i)). assert (G : forall j y, nth_error l j = Some y -> f (S i + j)%nat <= nlen y <= 15 * f (S i + j)%nat).
  { intros j y E. specialize (B (S j) y E). rewrite Nat.add_succ_r in B. exact B. }
  specialize (IH G). lia.
Qed.

Section E.
  Variables (u : unicode) (c : config) (k m n : nat).
  Hypothesis F : cfg_full c k m n.
  Notation H := (word_hash u).

  Theorem index_size ss dk wss : history u c ss dk -> docs_fit (all_docs ss) -> words_of (word_char u) (all_docs ss) wss ->
    (exists f, k_dmd dk = Some f /\ nlen f = 12 * (1 + nlen (all_docs ss))) /\
    (exists f, k_fnames dk = Some f /\ names_size (all_docs ss) + 2 * nlen (tree_nodes (all_docs ss)) + 1 <= nlen f /\
       nlen f <= names_size (all_docs ss) + 10 * nlen (tree_nodes (all_docs ss)) + 5) /\
    length (k_shards dk) = n /\
    (forall iix pos, In (iix, pos) (k_shards dk) -> 65536 * 6 <= nlen iix <= 65536 * 19) /\
    pairs H k m n wss <= total_size (map snd (k_shards dk)) <= 15 * pairs H k m n wss.
  Proof.
    intros Hi Fit Ww. destruct F as [Ok_ Hn Hf].
    destruct (history_inv u c k m n Ok_ Hn Hf ss dk Hi Fit wss Ww) as (fn & fs & D).
    destruct (cfg_nat _ _ _ _ Ok_) as (_ & _ & Hk & Hm & Hn0).
    pose proof (df_len _ Fit) as L. change (2 ^ 32) with 4294967296 in L. pose proof (words_of_len _ _ _ Ww) as Lw.
    assert (E1 : nlen fs = nlen (all_docs ss)) by (unfold nlen; f_equal; apply (recs_len _ _ _ (di_recs _ _ _ _ _ _ _ _ _ _ D))).
    split; [|split; [|split; [|split]]].
    - rewrite (di_dmd _ _ _ _ _ _ _ _ _ _ D). unfold dmd_file. eexists. split; [reflexivity|]. unfold nlen in *. rewrite render_dmd_length. cbn [length]. lia.
    - rewrite (di_fnames _ _ _ _ _ _ _ _ _ _ D). eexists. split; [reflexivity|]. apply names_file; [apply (di_wf _ _ _ _ _ _ _ _ _ _ D)|]. intros q. split.
      + intros [->|(p & suf & Hp' & Es)]; [exists 0; constructor|].
        assert (X : exists i, is_path fn i (tree_path p)).
        { pose proof (di_recs _ _ _ _ _ _ _ _ _ _ D) as R. clear -R Hp'. induction R as [|f p' l l' (_ & _ & A) R IH]; [destruct Hp'|].
          destruct Hp' as [->|Hp']; [|auto]. rewrite tree_path_parts. eauto. }
        destruct X as [i Hi']. rewrite Es in Hi'. eapply is_path_app_inv, Hi'.
      + intros [i Hi']. eapply (di_nodes _ _ _ _ _ _ _ _ _ _ D), Hi'.
    - apply (di_shards _ _ _ _ _ _ _ _ _ _ D).
    - intros iix pos Hin. apply In_nth_error in Hin. destruct Hin as [j Ej].
      destruct (di_closed _ _ _ _ _ _ _ _ _ _ D j _ Ej) as (x & log & J & Fl & Sz & Ef).
      assert (iix = iix_bytes (x_ind x)) as -> by congruence.
      pose proof (table_size _ (shard_inv_table_ok _ _ _ J Sz)) as T. destruct J as (J1 & _).
      assert (E : nlen (x_ind x) = 65536) by (unfold nlen; rewrite J1; reflexivity). rewrite E in T. exact T.
    - rewrite <- (carriers_pairs H k m n Hn0 wss 0). unfold all_q. rewrite concat_map, map_map, sumN_concat, map_map.
      pose proof (di_shards _ _ _ _ _ _ _ _ _ _ D) as Ls.
      pose proof (sums_between (fun s => sumN (map (fun q => nlen (carriers H k m n 0 wss q)) (map (fun b => N.of_nat b * N.of_nat n + N.of_nat s) (seq 0 num_slots)))) (map snd (k_shards dk)) 0) as G.
      rewrite map_length, Ls in G. apply G. clear G. intros j x Ej. cbn [Nat.add]. rewrite nth_error_map in Ej.
      destruct (nth_error (k_shards dk) j) as [[iix pos]|] eqn:Es; [|discriminate]. cbn [option_map snd] in Ej. assert (x = pos) as -> by congruence. clear Ej.
      assert (Lj : (j < n)%nat) by (rewrite <- Ls; apply nth_error_Some; congruence).
      destruct (di_closed _ _ _ _ _ _ _ _ _ _ D j _ Es) as (x' & log & J & Fl & Sz & Ef).
      assert (pos = x_file x') as -> by congruence. pose proof (posting_size _ _ _ J Fl) as S0.
      rewrite map_map. rewrite <- sum_to_list.
      rewrite (sum_to_ext num_slots _ (fun s => nlen (content_of (posts_for H k m n j 0 wss) s))); [exact S0|].
      intros s Ls'. f_equal. symmetry. unfold content_of. apply posts_carriers; auto; [unfold nlen in *; lia|]. eapply words_of_small, Ww.
  Qed.
End E.
