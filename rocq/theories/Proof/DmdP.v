From Verif Require Import Model.Base Model.Varint Model.Dmd Proof.Tactics Proof.VarintP.
Local Open Scope N_scope.

Definition wf_fields (d : fields) : Prop :=
  f_fid d < 4294967296 /\ f_start d < 4294967296 /\ f_end d < 4294967296.

Lemma enc_fields_length d : length (enc_fields d) = 12%nat.
Proof. reflexivity. Qed.

Definition render_dmd (all : list fields) : bytes := concat (map enc_fields all).

Lemma render_dmd_length all : length (render_dmd all) = (12 * length all)%nat.
Proof.
  unfold render_dmd. induction all as [|d r IH]; [reflexivity|]. cbn [map concat].
  rewrite app_length, IH, enc_fields_length. cbn [length]. lia.
Qed.

Lemma render_dmd_app l1 l2 : render_dmd (l1 ++ l2) = render_dmd l1 ++ render_dmd l2.
Proof. unfold render_dmd. rewrite map_app, concat_app. reflexivity. Qed.

Definition file_bytes (file : option bytes) : bytes := match file with None => [] | Some f => f end.

(** [all]: the dummy record followed by every document ever added. *)
Definition dmd_inv (all : list fields) (st : adder * option bytes) : Prop :=
  exists done, all = done ++ a_buf (fst st) /\
    file_bytes (snd st) = render_dmd done /\ a_flushed (fst st) = nlen done.

Lemma adder_flush_inv all a file :
  nlen all < 4294967296 ->
  dmd_inv all (a, file) -> dmd_inv all (adder_flush a file).
Proof.
  intros Hlen (done & Hall & Hf & Hfl). simpl in *.
  exists all. simpl. split; [rewrite app_nil_r; reflexivity|].
  rewrite Hall at 1. split.
  - rewrite render_dmd_app, <- Hf. unfold file_append. destruct file; reflexivity.
  - rewrite Hfl. unfold add32, u32. subst all. unfold nlen in *. rewrite app_length in *. lia.
Qed.

Lemma adder_add_inv all st d :
  nlen all < 4294967296 ->
  dmd_inv all st ->
  dmd_inv (all ++ [d]) (fst (adder_add st d)) /\ snd (adder_add st d) = nlen all.
Proof.
  destruct st as [a file]. intros Hlen Hi. unfold adder_add.
  assert (H1 : dmd_inv all (if u32 (nlen (a_buf a)) =? a_rate a then adder_flush a file else (a, file))).
  { destruct (_ =? _); [apply adder_flush_inv|]; assumption. }
  destruct (if u32 (nlen (a_buf a)) =? a_rate a then adder_flush a file else (a, file)) as [a1 file1].
  destruct H1 as (done & Hall & Hf & Hfl). simpl in *. split.
  - exists done. simpl. rewrite Hall, app_assoc. auto.
  - subst all. rewrite Hfl. unfold add32, u32, nlen in *. rewrite app_length in *. lia.
Qed.

Lemma adder_adds_inv ds : forall all st,
  nlen (all ++ ds) <= 4294967296 ->
  dmd_inv all st ->
  dmd_inv (all ++ ds) (fst (adder_adds st ds)) /\
  snd (adder_adds st ds) = map N.of_nat (seq (length all) (length ds)).
Proof.
  induction ds as [|d r IH]; intros all st Hlen Hi; simpl.
  - rewrite app_nil_r. auto.
  - destruct (adder_add_inv all st d) as [H1 H2]; [|assumption|].
    { unfold nlen in *. rewrite app_length in Hlen. simpl in Hlen. lia. }
    destruct (adder_add st d) as [st1 i]. simpl in *.
    destruct (IH (all ++ [d]) st1) as [H3 H4]; [|assumption|].
    { rewrite <- app_assoc. assumption. }
    destruct (adder_adds st1 r) as [st2 is]. simpl in *.
    rewrite <- app_assoc in H3. split; [assumption|].
    rewrite H2, H4, app_length. simpl. unfold nlen. f_equal. f_equal. f_equal. lia.
Qed.

Lemma adder_close_inv all st :
  nlen all < 4294967296 -> dmd_inv all st -> file_bytes (adder_close st) = render_dmd all.
Proof.
  destruct st as [a file]. intros Hlen Hi. unfold adder_close.
  destruct (a_buf a) eqn:E.
  - destruct Hi as (done & Hall & Hf & Hfl). simpl in *. rewrite E, app_nil_r in Hall. congruence.
  - apply adder_flush_inv in Hi; [|assumption]. destruct Hi as (done & Hall & Hf & _).
    unfold adder_flush in *. simpl in *. rewrite app_nil_r in Hall. congruence.
Qed.

Lemma file_bytes_some f all : file_bytes f = render_dmd all -> all <> [] -> f = Some (render_dmd all).
Proof.
  destruct f as [f|]; simpl; intros H Ha; [congruence|].
  destruct all as [|d r]; [congruence|]. exfalso.
  pose proof (render_dmd_length (d :: r)) as L. rewrite <- H in L. simpl in L. lia.
Qed.

(** The file between sessions: [None] (before the first), or dummy + documents. *)
Definition dmd_file (docs : list fields) : option bytes := Some (render_dmd (zero_fields :: docs)).

Lemma new_adder_fresh fr : (1 <= fr)%Z ->
  exists a, new_adder None fr = Ok a /\ dmd_inv [zero_fields] (a, None).
Proof.
  intros H. unfold new_adder. assert ((fr <? 1)%Z = false) as -> by lia.
  eexists. split; [reflexivity|]. exists []. simpl. auto.
Qed.

Lemma new_adder_reopen fr docs : (1 <= fr)%Z -> nlen docs < 4294967295 ->
  exists a, new_adder (dmd_file docs) fr = Ok a /\ dmd_inv (zero_fields :: docs) (a, dmd_file docs) /\
    a_buf a = [] /\ a_flushed a = 1 + nlen docs.
Proof.
  intros H Hl. unfold new_adder, dmd_file.
  assert (E : u32 (nlen (render_dmd (zero_fields :: docs)) / rcd_size) = 1 + nlen docs).
  { unfold nlen at 1. rewrite render_dmd_length. unfold u32, rcd_size, nlen in *. cbn [length].
    replace (N.of_nat (12 * S (length docs))) with ((1 + N.of_nat (length docs)) * 12) by lia.
    rewrite N.div_mul by lia. apply N.mod_small. lia. }
  rewrite E. assert ((1 + nlen docs =? 0) = false) as -> by lia.
  assert ((fr <? 0)%Z = false) as -> by lia.
  eexists. split; [reflexivity|]. split; [|auto]. exists (zero_fields :: docs). simpl.
  rewrite app_nil_r. repeat split. unfold nlen. cbn [length]. lia.
Qed.

Lemma adder_last_inv all st : nlen all < 4294967296 -> all <> [] -> dmd_inv all st ->
  adder_last (fst st) = nlen all - 1.
Proof.
  intros Hl Hn (done & Hall & Hf & Hfl). unfold adder_last. rewrite Hfl. subst all.
  destruct (done ++ a_buf (fst st)) eqn:E; [congruence|].
  apply (f_equal (@length _)) in E. rewrite app_length in E. simpl in E.
  unfold sub32, add32, u32, nlen in *. rewrite ?app_length in *. cbn [length] in *. lia.
Qed.

(** One session, starting from the documents [docs] already stored. *)
Lemma dmd_session_spec prev docs fr ds :
  (1 <= fr)%Z -> nlen (docs ++ ds) < 4294967295 ->
  (prev = None /\ docs = []) \/ prev = dmd_file docs ->
  dmd_session prev fr ds =
    Ok (dmd_file (docs ++ ds), map N.of_nat (seq (S (length docs)) (length ds))).
Proof.
  intros Hfr Hl Hprev. unfold dmd_session.
  assert (Hx : exists a, new_adder prev fr = Ok a /\ dmd_inv (zero_fields :: docs) (a, prev)).
  { destruct Hprev as [[-> ->]| ->].
    - apply new_adder_fresh; assumption.
    - destruct (new_adder_reopen fr docs) as (a & H1 & H2 & _); eauto.
      unfold nlen in *. rewrite app_length in Hl. lia. }
  destruct Hx as (a & -> & Hi). simpl.
  destruct (adder_adds_inv ds (zero_fields :: docs) (a, prev)) as [H1 H2]; [|assumption|].
  { unfold nlen in *. rewrite app_length in *. cbn [length]. lia. }
  destruct (adder_adds (a, prev) ds) as [st ids]. simpl in *.
  apply adder_close_inv in H1; [|unfold nlen in *; cbn [app length]; rewrite app_length in *; lia].
  change (zero_fields :: docs ++ ds) with (zero_fields :: (docs ++ ds)) in H1.
  apply file_bytes_some in H1; [|discriminate]. rewrite H1, H2. reflexivity.
Qed.

Lemma dmd_sessions_spec ss : forall prev docs,
  Forall (fun s => (1 <= fst s)%Z) ss ->
  nlen (docs ++ concat (map snd ss)) < 4294967295 ->
  (prev = None /\ docs = [] /\ ss <> []) \/ prev = dmd_file docs ->
  dmd_sessions prev ss =
    Ok (dmd_file (docs ++ concat (map snd ss)),
        map N.of_nat (seq (S (length docs)) (length (concat (map snd ss))))).
Proof.
  induction ss as [|[fr ds] r IH]; intros prev docs Hfr Hl Hprev; cbn [map concat snd fst] in *.
  - destruct Hprev as [(_ & _ & H)| ->]; [congruence|]. simpl. rewrite app_nil_r. reflexivity.
  - inv Hfr. simpl in H1. cbn [dmd_sessions].
    rewrite (dmd_session_spec prev docs); [|assumption| |tauto].
    2:{ unfold nlen in *. rewrite !app_length in *. lia. }
    cbn [bind]. rewrite (IH _ (docs ++ ds)); [|assumption| |right; reflexivity].
    2:{ rewrite <- app_assoc. assumption. }
    cbn [bind]. rewrite <- !app_assoc. do 2 f_equal.
    rewrite <- map_app. f_equal. rewrite !app_length.
    rewrite seq_app. do 2 f_equal.
Qed.

(** * Lookup *)

Lemma dmd_lookup_render l1 d l2 : wf_fields d ->
  dmd_lookup (render_dmd (l1 ++ d :: l2)) (nlen l1) = Ok d.
Proof.
  intros (H1 & H2 & H3). unfold dmd_lookup, read_full, pread, zlen.
  assert ((Z.of_N (nlen l1) * 12 <? 0)%Z = false) as -> by lia.
  change (12 <=? 0)%Z with false. cbn [bind].
  rewrite render_dmd_length, app_length. cbn [length].
  assert ((Z.of_N (nlen l1) * 12 + 12 <=? Z.of_nat (12 * (length l1 + S (length l2))))%Z = true) as ->
    by (unfold nlen; lia).
  cbn [bind].
  replace (Z.to_nat (Z.of_N (nlen l1) * 12)) with (length (render_dmd l1))
    by (rewrite render_dmd_length; unfold nlen; lia).
  rewrite render_dmd_app, skipn_app_exact by reflexivity.
  change (render_dmd (d :: l2)) with (enc_fields d ++ render_dmd l2).
  rewrite firstn_app_exact by reflexivity.
  unfold enc_fields. unfold sub.
  change (firstn (4 - 0) (skipn 0 (put_be32 (f_fid d) ++ put_be32 (f_start d) ++ put_be32 (f_end d))))
    with (put_be32 (f_fid d) ++ []).
  change (firstn (8 - 4) (skipn 4 (put_be32 (f_fid d) ++ put_be32 (f_start d) ++ put_be32 (f_end d))))
    with (put_be32 (f_start d) ++ []).
  change (firstn (12 - 8) (skipn 8 (put_be32 (f_fid d) ++ put_be32 (f_start d) ++ put_be32 (f_end d))))
    with (put_be32 (f_end d) ++ []).
  rewrite !be32_put by assumption. destruct d; reflexivity.
Qed.

Lemma dmd_lookup_file docs k d : Forall wf_fields docs ->
  nth_error docs k = Some d ->
  dmd_lookup (render_dmd (zero_fields :: docs)) (N.of_nat (S k)) = Ok d.
Proof.
  intros Hw Hk. destruct (nth_error_split_at _ _ _ Hk) as (l1 & l2 & -> & Hlen).
  replace (N.of_nat (S k)) with (nlen (zero_fields :: l1)) by (unfold nlen; cbn [length]; lia).
  change (zero_fields :: l1 ++ d :: l2) with ((zero_fields :: l1) ++ d :: l2).
  apply dmd_lookup_render. apply Forall_app in Hw. destruct Hw as [_ Hw]. inv Hw. assumption.
Qed.

Lemma dmd_lookup_beyond docs did : nlen docs < did ->
  dmd_lookup (render_dmd (zero_fields :: docs)) did = Err EOF.
Proof.
  intros H. unfold dmd_lookup, read_full, pread, zlen.
  assert ((Z.of_N did * 12 <? 0)%Z = false) as -> by lia.
  change (12 <=? 0)%Z with false. rewrite render_dmd_length.
  assert ((Z.of_N did * 12 + 12 <=? Z.of_nat (12 * length (zero_fields :: docs)))%Z = false) as ->.
  { unfold nlen in H. cbn [length]. lia. }
  assert ((Z.of_N did * 12 <? Z.of_nat (12 * length (zero_fields :: docs)))%Z = false) as ->.
  { unfold nlen in H. cbn [length]. lia. }
  reflexivity.
Qed.

Lemma dmd_num_docs_file docs : dmd_num_docs (render_dmd (zero_fields :: docs)) = 1 + nlen docs.
Proof. unfold dmd_num_docs, rcd_size, nlen. rewrite render_dmd_length. cbn [length].
  replace (N.of_nat (12 * S (length docs))) with ((1 + N.of_nat (length docs)) * 12) by lia.
  apply N.div_mul. lia. Qed.

(** Statements over whole histories, in the form used by Props/Dmd. *)
Lemma history_result h :
  h <> [] -> Forall (fun s => (1 <= fst s)%Z) h ->
  nlen (concat (map snd h)) < 4294967295 ->
  dmd_sessions None h =
    Ok (dmd_file (concat (map snd h)), map N.of_nat (seq 1 (length (concat (map snd h))))).
Proof. intros H1 H2 H3. apply (dmd_sessions_spec h None []); auto. Qed.

Lemma docids_consecutive h :
  h <> [] /\ Forall (fun s => (1 <= fst s)%Z) h /\
  nlen (concat (map snd h)) < 4294967295 /\ Forall wf_fields (concat (map snd h)) ->
  let docs := concat (map snd h) in
  exists file,
    dmd_sessions None h = Ok (Some file, map N.of_nat (seq 1 (length docs))) /\
    forall k d, nth_error docs k = Some d -> dmd_lookup file (N.of_nat (k + 1)) = Ok d.
Proof.
  intros (H1 & H2 & H3 & H4) docs. exists (render_dmd (zero_fields :: docs)). split.
  - rewrite history_result by assumption. reflexivity.
  - intros k d H. replace (k + 1)%nat with (S k) by lia. apply dmd_lookup_file; assumption.
Qed.

Lemma lookup_beyond h file ids :
  h <> [] /\ Forall (fun s => (1 <= fst s)%Z) h /\
  nlen (concat (map snd h)) < 4294967295 /\ Forall wf_fields (concat (map snd h)) ->
  dmd_sessions None h = Ok (Some file, ids) ->
  forall did, nlen (concat (map snd h)) < did -> dmd_lookup file did = Err EOF.
Proof.
  intros (H1 & H2 & H3 & H4) H did Hd. rewrite history_result in H by assumption. inv H.
  apply dmd_lookup_beyond; assumption.
Qed.

Lemma num_docs_plus_one h file ids :
  h <> [] /\ Forall (fun s => (1 <= fst s)%Z) h /\
  nlen (concat (map snd h)) < 4294967295 /\ Forall wf_fields (concat (map snd h)) ->
  dmd_sessions None h = Ok (Some file, ids) ->
  dmd_num_docs file = nlen (concat (map snd h)) + 1.
Proof.
  intros (H1 & H2 & H3 & H4) H. rewrite history_result in H by assumption. inv H.
  rewrite dmd_num_docs_file. lia.
Qed.

Lemma num_docs_wrong h file ids :
  h <> [] /\ Forall (fun s => (1 <= fst s)%Z) h /\
  nlen (concat (map snd h)) < 4294967295 /\ Forall wf_fields (concat (map snd h)) ->
  dmd_sessions None h = Ok (Some file, ids) ->
  dmd_num_docs file <> nlen (concat (map snd h)).
Proof. intros H1 H2. rewrite (num_docs_plus_one _ _ _ H1 H2). lia. Qed.
