(** Query.Get *)
From Coq Require Import Permutation.
From Verif Require Import Model.Base Model.Address Model.Post Model.Poster Model.Shard Model.Dmd Model.Fnames Model.Config Model.Index Model.Query.
From Verif Require Import Spec.Reading Spec.Querying Proof.Tactics.
Local Open Scope N_scope.

Lemma firstn_upd_le {A} n i (x : A) l : (n <= i)%nat -> firstn n (upd i x l) = firstn n l.
Proof.
  revert n l. induction i as [|i IH]; intros [|n] [|y l] H; cbn [upd firstn]; try reflexivity; try lia.
  f_equal. apply IH. lia.
Qed.
Lemma firstn_upd_S {A} n (x : A) l : (n < length l)%nat -> firstn (S n) (upd n x l) = firstn n l ++ [x].
Proof.
  revert l. induction n as [|n IH]; intros [|y l] H; cbn [length] in H; try lia; [reflexivity|].
  cbn [upd]. rewrite firstn_cons, IH by lia. reflexivity.
Qed.

Definition key_doc (k : bytes * N * N) (dat : bytes) : doc := MkDoc (fst (fst k)) (snd (fst k)) (snd k) dat.

Lemma put_doc_free grow ds p s e : docs_wf ds -> exists ds', put_doc grow false ds p s e = Ok ds' /\ docs_wf ds' /\
  docs_list ds' = docs_list ds ++ [MkDoc p s e []] /\ is_nil ds' = false.
Proof.
  intros W. unfold put_doc. destruct ds as [[n back]|].
  - cbn [docs_wf] in W. destruct (Nat.ltb_spec n (length back)) as [L|L].
    + eexists. split; [reflexivity|]. cbn [docs_wf docs_list is_nil]. rewrite upd_length.
      split; [lia|]. split; [apply firstn_upd_S, L|reflexivity].
    + assert (n = length back) as -> by lia. eexists. split; [reflexivity|]. cbn [docs_wf docs_list is_nil].
      rewrite app_length. cbn [length]. split; [lia|]. split; [|reflexivity].
      rewrite firstn_all. replace (S (length back)) with (length (back ++ [MkDoc p s e []])) by (rewrite app_length; cbn [length]; lia).
      change (MkDoc p s e [] :: repeat zero_doc (grow (length back))) with ([MkDoc p s e []] ++ repeat zero_doc (grow (length back))).
      rewrite app_assoc. apply firstn_app_exact. reflexivity.
  - eexists. split; [reflexivity|]. cbn [docs_wf docs_list is_nil length]. split; [lia|]. split; reflexivity.
Qed.
Lemma put_doc_lim grow n back p s e : (n < length back)%nat ->
  put_doc grow true (Some (n, back)) p s e = Ok (Some (S n, upd n (MkDoc p s e (d_dat (nth n back zero_doc))) back)).
Proof.
  intros L. unfold put_doc. rewrite (nth_error_nth' back zero_doc L). reflexivity.
Qed.

Section Q.
  Variable grow : nat -> nat.
  Variables (ix : index) (place : N -> bytes * N * N).

  Lemma get_loop_free f ids : forall fuel ps ds, reads f ps ids -> (forall d, In d ids -> docid2doc ix d = Ok (place d)) ->
    docs_wf ds -> (length ids < fuel)%nat ->
    exists ds', get_loop grow ix fuel false f ps ds = Ok ds' /\ docs_wf ds' /\
      docs_list ds' = docs_list ds ++ map (fun d => key_doc (place d) []) ids.
  Proof.
    induction ids as [|d ids IH]; intros [|fuel] ps ds R Pl W L; cbn [length] in L; try lia; cbn [get_loop andb reads map] in *.
    - rewrite R. exists ds. rewrite app_nil_r. auto.
    - destruct R as (ps' & E & R). rewrite E, (Pl d) by (left; reflexivity). cbn [bind].
      destruct (place d) as [[p s] e] eqn:Ep.
      destruct (put_doc_free grow ds p s e W) as (ds1 & E1 & W1 & L1 & _). rewrite E1. cbn [bind].
      destruct (IH fuel ps' ds1 R) as (ds2 & E2 & W2 & L2); auto; [|lia|].
      { intros x Hx. apply Pl. right. exact Hx. }
      exists ds2. split; [exact E2|]. split; [exact W2|]. rewrite L2, L1, <- app_assoc. reflexivity.
  Qed.
  (** Stores [keys] from position [n] on, keeping the Dat fields. *)
  Fixpoint store (n : nat) (keys : list (bytes * N * N)) (back : list doc) : list doc :=
    match keys with
    | [] => back
    | k :: r => store (S n) r (upd n (key_doc k (d_dat (nth n back zero_doc))) back)
    end.
  Lemma store_length keys : forall n back, length (store n keys back) = length back.
  Proof. induction keys as [|k keys IH]; intros n back; cbn [store]; [reflexivity|]. rewrite IH, upd_length. reflexivity. Qed.
  Lemma store_firstn keys : forall n i back, (i <= n)%nat -> firstn i (store n keys back) = firstn i back.
  Proof.
    induction keys as [|k keys IH]; intros n i back L; cbn [store]; [reflexivity|].
    rewrite IH by lia. apply firstn_upd_le, L.
  Qed.
  Lemma store_keys keys : forall n back, (n + length keys <= length back)%nat ->
    map doc_key (firstn (n + length keys) (store n keys back)) = map doc_key (firstn n back) ++ keys.
  Proof.
    induction keys as [|k keys IH]; intros n back L; cbn [store length] in *.
    - rewrite Nat.add_0_r, app_nil_r. reflexivity.
    - replace (n + S (length keys))%nat with (S n + length keys)%nat by lia. rewrite IH by (rewrite upd_length; lia).
      rewrite firstn_upd_S by lia. rewrite map_app, <- app_assoc. destruct k as [[p s] e]. reflexivity.
  Qed.
  Lemma get_loop_lim f : forall ids fuel ps n back, reads f ps ids -> (forall d, In d ids -> docid2doc ix d = Ok (place d)) ->
    (n <= length back)%nat -> (length ids < fuel)%nat ->
    get_loop grow ix fuel true f ps (Some (n, back)) =
      Ok (Some ((n + length (firstn (length back - n) ids))%nat, store n (map place (firstn (length back - n) ids)) back)).
  Proof.
    induction ids as [|d ids IH]; intros [|fuel] ps n back R Pl W L; cbn [length] in L; try lia; cbn [get_loop reads map] in *.
    - cbn [docs_len docs_cap andb]. rewrite R, firstn_nil. cbn [length map store]. rewrite Nat.add_0_r.
      destruct (n =? length back)%nat; reflexivity.
    - cbn [docs_len docs_cap andb]. destruct (Nat.eqb_spec n (length back)) as [->|Ne].
      + rewrite Nat.sub_diag. cbn [firstn map store length]. rewrite Nat.add_0_r. reflexivity.
      + destruct R as (ps' & E & R). rewrite E, (Pl d) by (left; reflexivity). cbn [bind].
        destruct (place d) as [[p s] e] eqn:Ep. rewrite put_doc_lim by lia. cbn [bind].
        rewrite IH; [|exact R|intros x Hx; apply Pl; right; exact Hx|rewrite upd_length; lia|lia].
        rewrite upd_length. replace (length back - n)%nat with (S (length back - S n)) by lia.
        cbn [firstn map store length]. rewrite Ep. do 3 f_equal. lia.
  Qed.

  Variables (n : nat) (content : nat -> nat -> list N).
  Hypothesis I : index_ok ix n content place.

  Lemma u32_n : u32 (nlen (ix_shards ix)) = N.of_nat n.
  Proof. unfold u32, nlen. rewrite (io_len _ _ _ _ I). apply N.mod_small. pose proof (io_max _ _ _ _ I). lia. Qed.
  Definition slot_of (blot : N) : nat := N.to_nat (blot / N.of_nat n mod 65536).
  Definition shard_of (blot : N) : nat := N.to_nat (blot mod N.of_nat n).
  Lemma slot_lt blot : (slot_of blot < num_slots)%nat.
  Proof. unfold slot_of, num_slots. assert (X : blot / N.of_nat n mod 65536 < 65536) by (apply N.mod_lt; lia). lia. Qed.
  Lemma shard_lt blot : (shard_of blot < n)%nat.
  Proof.
    unfold shard_of. pose proof (io_pos _ _ _ _ I). assert (X : blot mod N.of_nat n < N.of_nat n) by (apply N.mod_lt; lia). lia.
  Qed.
  Lemma nth_shard s : (s < n)%nat -> exists si, nth_error (ix_shards ix) s = Some si.
  Proof.
    intros L. destruct (nth_error (ix_shards ix) s) eqn:E; eauto. apply nth_error_None in E. rewrite (io_len _ _ _ _ I) in E. lia.
  Qed.

  Lemma query_get_at blot fuel ds :
    exists si, nth_error (ix_shards ix) (shard_of blot) = Some si /\
    query_get grow ix fuel blot ds = get_loop grow ix fuel (negb (is_nil ds)) (si_file si) (new_posts (nth (slot_of blot) (si_heads si) (-1)%Z)) ds.
  Proof.
    destruct (nth_shard (shard_of blot) (shard_lt blot)) as [si E]. exists si. split; [exact E|].
    unfold query_get, get_address. rewrite u32_n. pose proof (io_pos _ _ _ _ I).
    destruct (N.eqb_spec (N.of_nat n) 0); [lia|]. cbn [bind]. fold (shard_of blot). rewrite E. reflexivity.
  Qed.
  Theorem get_unlimited blot : let ids := content (shard_of blot) (slot_of blot) in
    forall fuel, (length ids < fuel)%nat ->
    exists ds, query_get grow ix fuel blot None = Ok ds /\ docs_wf ds /\
      docs_list ds = map (fun d => key_doc (place d) []) ids.
  Proof.
    cbv zeta. intros fuel L. destruct (query_get_at blot fuel None) as (si & E & ->). cbn [is_nil negb].
    destruct (io_reads _ _ _ _ I _ _ E (slot_of blot) (slot_lt blot)) as [R _].
    destruct (get_loop_free (si_file si) (content (shard_of blot) (slot_of blot)) fuel _ None R) as (ds & E1 & W & L1); auto.
    - intros d Hd. eapply (io_place _ _ _ _ I); [apply shard_lt|apply slot_lt|exact Hd].
    - exact Logic.I.
    - exists ds. auto.
  Qed.
  Theorem get_limited blot len back : (len <= length back)%nat -> let ids := content (shard_of blot) (slot_of blot) in
    let new := firstn (length back - len) ids in
    forall fuel, (length ids < fuel)%nat ->
    query_get grow ix fuel blot (Some (len, back)) = Ok (Some ((len + length new)%nat, store len (map place new) back)).
  Proof.
    cbv zeta. intros W fuel L. destruct (query_get_at blot fuel (Some (len, back))) as (si & E & ->). cbn [is_nil negb].
    destruct (io_reads _ _ _ _ I _ _ E (slot_of blot) (slot_lt blot)) as [R _].
    apply get_loop_lim; auto.
    intros d Hd. eapply (io_place _ _ _ _ I); [apply shard_lt|apply slot_lt|exact Hd].
  Qed.
End Q.
