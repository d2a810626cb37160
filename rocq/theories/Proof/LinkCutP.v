(** A flush that is stopped between the write of the link and the write of the chunk. *)
From Verif Require Import Model.Base Model.Address Model.Varint Model.Post Model.Poster Model.Shard Model.Query Model.Index Model.Crash Spec.Postings Spec.Reading Spec.Querying Proof.Tactics Proof.VarintP Proof.PosterP Proof.ShardP Proof.QueryP Proof.KeepP.
Local Open Scope N_scope.

(** * Reading *)
(** The results of Next are [ids], and then an error that is not the end. *)
Fixpoint reads_err (f : bytes) (r : posts) (ids : list N) : Prop :=
  match ids with
  | [] => posts_next r f = Err EOther
  | d :: rest => exists r', posts_next r f = Ok (d, r') /\ reads_err f r' rest
  end.
Lemma err_buffered f rest : forall todo i np cur done,
  i = length done ->
  reads_err f (MkPosts (length (done ++ todo)) np cur (done ++ todo)) rest ->
  reads_err f (MkPosts i np cur (done ++ todo)) (todo ++ rest).
Proof.
  induction todo as [|d t IH]; intros i np cur done -> H.
  - rewrite !app_nil_r in *. exact H.
  - cbn [app reads_err]. unfold posts_next. cbn [r_i r_docids r_nextpos r_current].
    assert ((length done =? length (done ++ d :: t))%nat = false) as ->
      by (rewrite app_length; cbn [length]; lia).
    cbn [bind r_i r_docids]. rewrite nth_error_app2, Nat.sub_diag by lia. cbn [nth_error].
    eexists. split; [reflexivity|].
    replace (done ++ d :: t) with ((done ++ [d]) ++ t) in * by (rewrite <- app_assoc; reflexivity).
    apply IH; [rewrite app_length; cbn [length]; lia|]. exact H.
Qed.
Lemma varint_end f off : (length f <= off)%nat -> read_varint_at f (Z.of_nat off) = Err EOF.
Proof.
  intros L. unfold read_varint_at. change max_varint_len64 with 10%nat. cbn [read_varint_at_aux]. unfold pread, zlen.
  assert ((Z.of_nat off + 0 <? 0)%Z = false) as -> by lia. change (1 <=? 0)%Z with false. cbn iota.
  assert ((Z.of_nat off + 0 + 1 <=? Z.of_nat (length f))%Z = false) as -> by lia. reflexivity.
Qed.

Section Cut.
  Variables (L R : list entry) (f : bytes).
  Hypothesis HR : R = [] \/ exists e, R = [e].
  Hypothesis Hok : log_ok L.
  Hypothesis Hsz : (Z.of_nat (log_size L) < 9223372036854775808)%Z.
  Hypothesis Hf : f = firstn (log_size L) (render 0 (L ++ R)).

  Lemma cut_length : length f = log_size L.
  Proof. rewrite Hf, firstn_length, render_length, log_size_app. lia. Qed.
  Lemma cut_at l1 s ds r : L = l1 ++ (s, ds) :: r -> exists f',
    skipn (log_size l1) f = chunk_hdr ds ++ payload ds ++ link_bytes (next_off s (log_size l1 + chunk_len ds) (r ++ R)) ++ f'.
  Proof.
    intros E. rewrite Hf. rewrite skipn_firstn_comm.
    replace (L ++ R) with (l1 ++ ((s, ds) :: r) ++ R) by (rewrite E, <- app_assoc; reflexivity).
    rewrite skipn_render, Nat.add_0_l. cbn [app render].
    exists (firstn (log_size r) (render (log_size l1 + chunk_len ds) (r ++ R))).
    rewrite E, log_size_app. cbn [log_size]. replace (log_size l1 + (chunk_len ds + log_size r) - log_size l1)%nat with (chunk_len ds + log_size r)%nat by lia.
    rewrite !app_assoc. rewrite firstn_app. f_equal.
    - apply firstn_all2. rewrite !app_length, link_bytes_length. unfold chunk_len. lia.
    - f_equal. rewrite !app_length, link_bytes_length. unfold chunk_len. lia.
  Qed.
  Lemma rest_pos s base : (base <= log_size L)%nat -> forall r, (base + log_size r = log_size L)%nat ->
    next_off s base (r ++ R) = (-1)%Z /\ ~ In s (map fst r) /\ ~ In s (map fst R) \/ (Z.of_nat base <= next_off s base (r ++ R) <= Z.of_nat (log_size L))%Z.
  Proof.
    intros Lb r Er. destruct (in_dec Nat.eq_dec s (map fst r)) as [Hin|Hout].
    - right. rewrite next_off_app by exact Hin. destruct (next_off_range s r base) as [E|E]; [|lia].
      apply next_off_none in E. contradiction.
    - assert (X : next_off s base (r ++ R) = next_off s (base + log_size r) R).
      { clear - Hout. revert base. induction r as [|[s' ds] r IH]; intros base; cbn [app next_off log_size map fst In] in *; [rewrite Nat.add_0_r; reflexivity|].
        destruct (Nat.eqb_spec s' s) as [E|E]; [exfalso; auto|]. rewrite IH by tauto. f_equal. lia. }
      rewrite X, Er. destruct HR as [->|[[s' ds] ->]]; cbn [next_off map fst In]; [left; tauto|].
      destruct (Nat.eqb_spec s' s) as [E|E]; [right; lia|left; tauto].
  Qed.
  Lemma link_back s base r : (base <= log_size L)%nat -> (base + log_size r = log_size L)%nat ->
    i64_of_u64 (be64 (link_bytes (next_off s base (r ++ R)))) = next_off s base (r ++ R).
  Proof.
    intros Lb Er. unfold link_bytes. rewrite <- (app_nil_r (put_be64 _)), be64_put by apply u64_of_i64_range.
    apply i64_u64. destruct (rest_pos s base Lb r Er) as [[-> _]|X]; lia.
  Qed.

  Lemma cut_reads s : In s (map fst R) -> forall l2 l1 n cur ids, L = l1 ++ l2 -> n = length ids ->
    reads_err f (MkPosts n (next_off s (log_size l1) (l2 ++ R)) cur ids) (sums cur (concat (chunks s l2))).
  Proof.
    intros HsR. induction l2 as [|[s' ds] r IH]; intros l1 n cur ids Hlog Hn.
    - cbn [chunks filter map concat sums reads_err app]. rewrite app_nil_r in Hlog.
      destruct HR as [Hr|[[s1 ds1] Hr]]; [rewrite Hr in HsR; destruct HsR|].
      rewrite Hr in HsR |- *. cbn [map fst In] in HsR. destruct HsR as [->|[]]. cbn [next_off]. rewrite Nat.eqb_refl.
      unfold posts_next. cbn [r_i r_docids r_nextpos].
      assert ((n =? length ids)%nat = true) as -> by (apply Nat.eqb_eq; auto).
      destruct (Z.eqb_spec (Z.of_nat (log_size l1)) (-1)); [lia|].
      unfold read_next. cbn [r_nextpos]. rewrite varint_end by (rewrite cut_length, Hlog; lia). reflexivity.
    - assert (log_size (l1 ++ [(s', ds)]) = (log_size l1 + chunk_len ds)%nat) as Hls
        by (rewrite log_size_app; cbn [log_size]; lia).
      assert (HL : log_size L = (log_size l1 + chunk_len ds + log_size r)%nat) by (rewrite Hlog, log_size_app; cbn [log_size]; lia).
      destruct (Nat.eqb_spec s' s) as [->|Hs].
      + assert (chunks s ((s, ds) :: r) = ds :: chunks s r) as ->
          by (unfold chunks; cbn [filter fst]; rewrite Nat.eqb_refl; reflexivity).
        cbn [concat app next_off]. rewrite Nat.eqb_refl, sums_app.
        assert (Eok : entry_ok (s, ds)) by (rewrite Hlog in Hok; apply Forall_app in Hok; destruct Hok as [_ Hok']; inv Hok'; assumption).
        set (lst := last (sums cur ds) cur).
        destruct (cut_at l1 s ds r Hlog) as (f' & Sk).
        set (lk := link_bytes (next_off s (log_size l1 + chunk_len ds) (r ++ R))) in *.
        assert (reads_err f (MkPosts 0 (i64_of_u64 (be64 lk)) lst (sums cur ds)) (sums cur ds ++ sums lst (concat (chunks s r)))) as H.
        { apply (err_buffered _ _ (sums cur ds) 0 _ _ []); [reflexivity|]. cbn [app].
          unfold lk. rewrite link_back by lia. rewrite <- Hls. apply IH; [|reflexivity]. rewrite <- app_assoc. exact Hlog. }
        pose proof Eok as (Hne & _). cbn [snd] in Hne.
        destruct ds as [|d0 ds0]; [congruence|]. cbn [sums app] in H |- *. cbn [reads_err] in H |- *.
        destruct H as (r' & H1 & H2). exists r'. split; [|exact H2].
        rewrite <- H1. unfold posts_next at 1. cbn [r_i r_docids r_nextpos].
        assert ((n =? length ids)%nat = true) as -> by (apply Nat.eqb_eq; auto).
        destruct (Z.eqb_spec (Z.of_nat (log_size l1)) (-1)); [lia|].
        rewrite (read_next_at f (log_size l1) s (d0 :: ds0) lk f') by (auto; apply link_bytes_length).
        cbn [bind r_i r_docids r_current sums]. fold lst.
        unfold posts_next. cbn [r_i r_docids]. cbn [length Nat.eqb bind]. reflexivity.
      + assert (chunks s ((s', ds) :: r) = chunks s r) as ->
          by (unfold chunks; cbn [filter fst]; destruct (Nat.eqb_spec s' s); [congruence|reflexivity]).
        cbn [app next_off]. destruct (Nat.eqb_spec s' s); [congruence|].
        rewrite <- Hls. apply IH; [|assumption]. rewrite <- app_assoc. exact Hlog.
  Qed.

  (** Following the links, as when appending. *)
  Lemma cut_walk s p : forall l2 l1 fuel, L = l1 ++ l2 -> (length l2 < fuel)%nat -> In s (map fst l2) ->
    (In s (map fst R) -> read_to_link_aux fuel p f (next_off s (log_size l1) l2) = Err EOF) /\
    (~ In s (map fst R) -> exists p', read_to_link_aux fuel p f (next_off s (log_size l1) l2) = Ok p').
  Proof.
    induction l2 as [|[s' ds] r IH]; intros l1 fuel Hlog Hfu Hin; [destruct Hin|].
    assert (log_size (l1 ++ [(s', ds)]) = (log_size l1 + chunk_len ds)%nat) as Hls
      by (rewrite log_size_app; cbn [log_size]; lia).
    assert (HL : log_size L = (log_size l1 + chunk_len ds + log_size r)%nat) by (rewrite Hlog, log_size_app; cbn [log_size]; lia).
    cbn [next_off]. cbn [map fst In] in Hin. cbn [length] in Hfu.
    destruct (Nat.eqb_spec s' s) as [->|Hs].
    - destruct fuel as [|k]; [lia|]. cbn [read_to_link_aux].
      destruct (cut_at l1 s ds r Hlog) as (f' & Sk).
      set (lk := next_off s (log_size l1 + chunk_len ds) (r ++ R)) in *.
      assert (entry_ok (s, ds)) as (Hne & Hd & Hp).
      { rewrite Hlog in Hok. apply Forall_app in Hok. destruct Hok as [_ Hok']. inv Hok'. assumption. }
      cbn [snd] in *.
      rewrite (read_varint_at_spec _ (log_size l1) (Z.of_nat (length (payload ds) + 8)) _ ltac:(lia) Sk).
      cbn [bind]. fold (chunk_hdr ds).
      assert (1 <= length (payload ds))%nat as Hpl.
      { pose proof (payload_length_ge ds). destruct ds; [congruence|]. cbn [length] in *. lia. }
      assert ((Z.of_nat (length (payload ds) + 8) <=? 8)%Z = false) as -> by lia.
      unfold zlen. rewrite <- Nat2Z.inj_add.
      replace (length (payload ds) + 8)%nat with (length (payload ds ++ link_bytes lk))
        by (rewrite app_length, link_bytes_length; reflexivity).
      rewrite (pread_skipn _ _ _ f').
      2: rewrite app_length, link_bytes_length; lia.
      2: rewrite skipn_add, Sk, skipn_app_exact by reflexivity; rewrite <- app_assoc; reflexivity.
      cbn [bind]. rewrite app_length, link_bytes_length, Nat2Z.id.
      rewrite skipn_app_exact by lia.
      assert (i64_of_u64 (be64 (link_bytes lk)) = lk) as -> by (apply link_back; lia).
      destruct (in_dec Nat.eq_dec s (map fst r)) as [Hr|Hr].
      + assert (El : lk = next_off s (log_size l1 + chunk_len ds) r) by (apply next_off_app; exact Hr).
        destruct (Z.eqb_spec lk (-1)) as [E|E]; [rewrite El in E; apply next_off_none in E; contradiction|].
        rewrite El, <- Hls. apply IH; [|lia|exact Hr]. rewrite <- app_assoc. exact Hlog.
      + destruct (Z.eqb_spec lk (-1)) as [E|E].
        * split; [|intros _; eexists; reflexivity]. intros HsR. exfalso. unfold lk in E. apply next_off_none in E. apply E. rewrite map_app. apply in_or_app. right. exact HsR.
        * split; [|intros HsR; exfalso; apply E; unfold lk; apply next_off_none; rewrite map_app; intros X; apply in_app_or in X; tauto].
          intros HsR. assert (El : lk = Z.of_nat (log_size L)).
          { unfold lk. clear - Hr HR HsR HL. destruct HR as [Er|[[s1 ds1] Er]]; rewrite Er in *; [destruct HsR|]. cbn [map fst In] in HsR. destruct HsR as [->|[]].
            rewrite HL. generalize (log_size l1 + chunk_len ds)%nat. clear HL. induction r as [|[s2 ds2] r IH]; intros b; cbn [app next_off log_size map fst In] in *.
            - rewrite Nat.eqb_refl. f_equal. lia.
            - destruct (Nat.eqb_spec s2 s); [exfalso; auto|]. rewrite IH by tauto. f_equal. lia. }
          destruct k as [|k]; [lia|]. cbn [read_to_link_aux]. rewrite El, varint_end by (rewrite cut_length; lia). reflexivity.
    - destruct Hin as [|Hin]; [congruence|]. rewrite <- Hls. apply IH; [|lia|exact Hin]. rewrite <- app_assoc. exact Hlog.
  Qed.
  Lemma cut_link s p : p_link p = (-1)%Z -> p_head p = (-1)%Z \/ p_head p = next_off s 0 L ->
    (~ In s (map fst R) -> exists p', read_to_link p f = Ok p') /\
    (In s (map fst R) -> p_head p <> (-1)%Z -> read_to_link p f = Err EOF).
  Proof.
    intros El Eh. unfold read_to_link. rewrite El. change (negb (-1 =? -1)%Z) with false. cbn iota.
    destruct (Z.eqb_spec (p_head p) (-1)) as [E|E]; [split; [eauto|contradiction]|].
    destruct Eh as [Eh|Eh]; [contradiction|]. pose proof E as E1. rewrite Eh in E1. rewrite next_off_none in E1.
    assert (Hin : In s (map fst L)) by (destruct (in_dec Nat.eq_dec s (map fst L)); tauto).
    rewrite Eh. destruct (cut_walk s p L [] (S (length f)) eq_refl) as [A B]; [rewrite cut_length; pose proof (log_size_ge L); lia|exact Hin|].
    cbn [log_size] in A, B. auto.
  Qed.
  (** All slots of a table. *)
  Lemma cut_links_ok ps : forall i, (forall j p, nth_error ps j = Some p -> p_link p = (-1)%Z /\ (p_head p = (-1)%Z \/ p_head p = next_off (i + j) 0 L) /\ ~ In (i + j)%nat (map fst R)) ->
    exists ps', read_links ps f = Ok ps'.
  Proof.
    induction ps as [|p ps IH]; intros i H; cbn [read_links]; [eauto|].
    destruct (H 0%nat p eq_refl) as (H1 & H2 & H3). destruct (cut_link (i + 0) p H1 H2) as [A _]. destruct (A H3) as [p' ->]. cbn [bind].
    destruct (IH (S i)) as [ps' ->]; [|cbn [bind]; eauto]. intros j q E. replace (S i + j)%nat with (i + S j)%nat by lia. exact (H (S j) q E).
  Qed.
  Lemma cut_links_err s ps : In s (map fst R) -> forall i, (forall j p, nth_error ps j = Some p -> p_link p = (-1)%Z /\ (p_head p = (-1)%Z \/ p_head p = next_off (i + j) 0 L)) ->
    (i <= s)%nat -> (exists p, nth_error ps (s - i) = Some p /\ p_head p <> (-1)%Z) -> exists e, read_links ps f = Err e.
  Proof.
    intros HsR. induction ps as [|p ps IH]; intros i H Li (q & Eq & Hq); [destruct (s - i)%nat; discriminate|]. cbn [read_links].
    destruct (H 0%nat p eq_refl) as (H1 & H2). destruct (cut_link (i + 0) p H1 H2) as [A B].
    destruct (Nat.eq_dec s i) as [->|Ne].
    - rewrite Nat.sub_diag in Eq. cbn [nth_error] in Eq. injection Eq as ->. rewrite Nat.add_0_r in B. rewrite (B HsR Hq). eexists. reflexivity.
    - destruct A as [p' ->].
      { rewrite Nat.add_0_r. intros X. destruct HR as [Er|[[s1 ds1] Er]]; rewrite Er in HsR, X; cbn [map fst In] in HsR, X; [destruct X|]. destruct HsR as [->|[]], X as [->|[]]. lia. }
      cbn [bind]. destruct (IH (S i)) as [e ->]; [| | |cbn [bind]; eauto].
      + intros j r E. replace (S i + j)%nat with (i + S j)%nat by lia. exact (H (S j) r E).
      + lia.
      + exists q. split; [|exact Hq]. replace (s - i)%nat with (S (s - S i)) in Eq by lia. exact Eq.
  Qed.
End Cut.

(** * Get *)
Section Get.
  Variables (grow : nat -> nat) (ix : index) (place : N -> bytes * N * N).
  Lemma get_loop_err f ids : forall fuel ps ds, reads_err f ps ids -> docs_wf ds -> (length ids < fuel)%nat ->
    (forall d, In d ids -> docid2doc ix d = Ok (place d)) -> get_loop grow ix fuel false f ps ds = Err EOther.
  Proof.
    induction ids as [|d ids IH]; intros [|fuel] ps ds R W L Pl; cbn [length] in L; try lia; cbn [get_loop andb reads_err] in *.
    - rewrite R. reflexivity.
    - destruct R as (r' & -> & R). rewrite (Pl d (or_introl eq_refl)). cbn [bind]. destruct (place d) as [[p a] b] eqn:Epl.
      destruct (put_doc_free grow ds p a b W) as (ds' & Ep & W' & _). rewrite Ep. cbn [bind]. apply IH; auto; [lia|]. intros; apply Pl; right; assumption.
  Qed.
End Get.

(** * Writing *)
(** Serving the posts of one document to a shard without pending posts: at most one delta is
    pending in each slot. *)
Section One.
  Variables (D : N) (HD : d32 D).
  Definition young (x : shard) : Prop := forall s p, nth_error (x_ind x) s = Some p ->
    p_posts p = [] /\ p_total p < 4294967295 \/ p_current p = D /\ p_total p <> 0 /\ exists d, p_posts p = put_uvarint d /\ d32 d.
  Definition touched (s : nat) (x : shard) : Prop := exists p d, nth_error (x_ind x) s = Some p /\ p_posts p = put_uvarint d /\ d32 d.
  Lemma add_young p f : p_posts p = [] -> p_total p < 4294967295 -> (p_current p =? D) && negb (p_total p =? 0) = false ->
    exists p', add_post p D f = (p', []) /\ p_current p' = D /\ p_total p' <> 0 /\ exists d, p_posts p' = put_uvarint d /\ d32 d.
  Proof.
    intros E1 E2 E3. unfold add_post. rewrite E3. cbn [p_posts]. rewrite E1. cbn [app].
    assert ((flush_rate <=? length (put_uvarint (sub32 D (p_current p))))%nat = false) as ->.
    { pose proof (put_uvarint_len32 (sub32 D (p_current p)) (sub32_d32 D (p_current p))). unfold flush_rate. apply Nat.leb_gt. lia. }
    eexists. split; [reflexivity|]. cbn [p_current p_total p_posts]. split; [reflexivity|]. split; [unfold u32; lia|].
    eexists. split; [reflexivity|]. apply sub32_d32.
  Qed.
  Lemma serve_young x p : young x -> post_docid p = D -> young (serve_post x p) /\ length (x_ind (serve_post x p)) = length (x_ind x) /\
    (forall s, touched s x -> touched s (serve_post x p)).
  Proof.
    intros Y E. unfold serve_post, serve_post_w. rewrite E. set (h := N.to_nat (serve_slot p)).
    destruct (nth_error (x_ind x) h) as [po|] eqn:Eh; [|cbn [fst]; auto].
    destruct ((p_current po =? D) && negb (p_total po =? 0)) eqn:Ec.
    - assert (add_post po D (x_file x) = (po, [])) as -> by (unfold add_post; rewrite Ec; reflexivity). cbn [fst x_ind]. rewrite upd_length.
      assert (X : forall s q, nth_error (upd h po (x_ind x)) s = Some q -> nth_error (x_ind x) s = Some q).
      { intros s q. rewrite nth_error_upd. destruct (Nat.eqb_spec h s) as [<-|]; [|auto]. rewrite Eh. auto. }
      split; [intros s q Hq; apply (Y s), X, Hq|]. split; [reflexivity|]. intros s (q & d & Hq & Hd). exists q, d. split; [|exact Hd].
      cbn [x_ind]. rewrite nth_error_upd. destruct (Nat.eqb_spec h s) as [<-|]; [|exact Hq]. rewrite Eh. congruence.
    - destruct (Y h po Eh) as [(Y1 & Y2)|(Y1 & Y2 & _)].
      2:{ rewrite Y1, N.eqb_refl in Ec. destruct (N.eqb_spec (p_total po) 0); [contradiction|discriminate]. }
      destruct (add_young po (x_file x) Y1 Y2 Ec) as (p' & -> & A1 & A2 & d & A3 & A4). cbn [fst x_ind]. rewrite upd_length.
      split; [|split; [reflexivity|]].
      + intros s q Hq. cbn [x_ind] in Hq. rewrite nth_error_upd in Hq. destruct (Nat.eqb_spec h s) as [<-|]; [|apply (Y s), Hq]. rewrite Eh in Hq.
        injection Hq as <-. right. eauto.
      + intros s (q & d' & Hq & Hd). unfold touched. cbn [x_ind]. rewrite nth_error_upd. destruct (Nat.eqb_spec h s) as [<-|]; [|eauto]. rewrite Eh. eauto.
  Qed.
  Lemma serve_touches x p s po : young x -> post_docid p = D -> N.to_nat (serve_slot p) = s -> nth_error (x_ind x) s = Some po ->
    p_current po <> D \/ p_total po = 0 \/ touched s x -> touched s (serve_post x p).
  Proof.
    intros Y E Es Ep H. destruct H as [H|[H|H]]; [| |apply (serve_young x p Y E), H].
    all: unfold serve_post, serve_post_w; rewrite E, Es, Ep.
    all: assert (Ec : (p_current po =? D) && negb (p_total po =? 0) = false) by (destruct (N.eqb_spec (p_current po) D), (N.eqb_spec (p_total po) 0); auto; contradiction).
    all: destruct (Y s po Ep) as [(Y1 & Y2)|(Y1 & Y2 & _)]; try contradiction.
    all: destruct (add_young po (x_file x) Y1 Y2 Ec) as (p' & -> & A1 & A2 & d & A3 & A4); unfold touched; cbn [fst x_ind]; rewrite nth_error_upd, Nat.eqb_refl, Ep; eauto.
  Qed.
  Lemma batch_young ps : forall x, Forall (fun p => post_docid p = D) ps -> young x -> forall s, touched s x -> touched s (serve_batch x ps).
  Proof.
    induction ps as [|p ps IH]; intros x F Y s T; cbn [serve_batch fold_left]; [exact T|]. inv F.
    destruct (serve_young x p Y H1) as (Y1 & _ & T1). apply IH; auto.
  Qed.
  (** Slots not hit stay as they are. *)
  Lemma serve_other x p s : N.to_nat (serve_slot p) <> s -> nth_error (x_ind (serve_post x p)) s = nth_error (x_ind x) s.
  Proof.
    intros Ne. unfold serve_post, serve_post_w. destruct (nth_error (x_ind x) (N.to_nat (serve_slot p))) as [po|]; [|reflexivity].
    destruct (add_post po (post_docid p) (x_file x)) as [po' ws]. cbn [fst x_ind]. rewrite nth_error_upd. destruct (Nat.eqb_spec (N.to_nat (serve_slot p)) s); [contradiction|reflexivity].
  Qed.
  Lemma batch_touches ps : forall x s po, Forall (fun p => post_docid p = D) ps -> young x -> nth_error (x_ind x) s = Some po -> p_current po <> D ->
    (exists p, In p ps /\ N.to_nat (serve_slot p) = s) -> touched s (serve_batch x ps).
  Proof.
    induction ps as [|p ps IH]; intros x s po F Y Ep Nc (q & Hq & Es); [destruct Hq|]. cbn [serve_batch fold_left]. inv F.
    destruct (serve_young x p Y H1) as (Y1 & L1 & T1).
    destruct (Nat.eq_dec (N.to_nat (serve_slot p)) (N.to_nat (serve_slot q))) as [E|Ne].
    - apply batch_young; auto. eapply serve_touches; eauto.
    - apply (IH _ _ po); auto; [rewrite serve_other by exact Ne; exact Ep|]. exists q. destruct Hq as [->|Hq]; [contradiction|auto].
  Qed.
End One.

(** The writes of a flush, slot by slot. *)
Lemma wops_cut_app a : forall b f f', wops_cut b (apply_wops f a) f' -> wops_cut (a ++ b) f f'.
Proof.
  induction a as [|[off d] a IH]; intros b f f' C; cbn [app apply_wops fold_left fst snd] in *; [exact C|]. apply cut_later. apply IH. exact C.
Qed.
Lemma flush_split a : forall b i x, flush_ind_w (a + b) i x =
  (let '(x1, w1) := flush_ind_w a i x in
   if (length (x_ind x1) <=? i + a)%nat then (x1, w1) else let '(x2, w2) := flush_ind_w b (i + a) x1 in (x2, w1 ++ w2)).
Proof.
  induction a as [|a IH]; intros b i x; cbn [Nat.add flush_ind_w].
  - rewrite Nat.add_0_r. destruct (Nat.leb_spec (length (x_ind x)) i) as [L|L].
    + destruct b; cbn [flush_ind_w]; [reflexivity|]. assert (nth_error (x_ind x) i = None) as -> by (apply nth_error_None; exact L). reflexivity.
    + destruct (flush_ind_w b i x). reflexivity.
  - destruct (nth_error (x_ind x) i) as [po|] eqn:E.
    + destruct (flush_to po (x_file x)) as [po' ws]. rewrite IH. destruct (flush_ind_w a (S i) _) as [x1 w1].
      replace (i + S a)%nat with (S i + a)%nat by lia. destruct (_ <=? _)%nat; [reflexivity|]. destruct (flush_ind_w b _ x1). rewrite app_assoc. reflexivity.
    + apply nth_error_None in E. assert ((length (x_ind x) <=? i + S a)%nat = true) as -> by (apply Nat.leb_le; lia). reflexivity.
Qed.
Lemma flush_facts n : forall i x, x_file (fst (flush_ind_w n i x)) = apply_wops (x_file x) (snd (flush_ind_w n i x)) /\
  length (x_ind (fst (flush_ind_w n i x))) = length (x_ind x) /\
  forall s, (i + n <= s)%nat -> nth_error (x_ind (fst (flush_ind_w n i x))) s = nth_error (x_ind x) s.
Proof.
  induction n as [|n IH]; intros i x; cbn [flush_ind_w]; [auto|]. destruct (nth_error (x_ind x) i) as [po|]; [|auto].
  destruct (flush_to po (x_file x)) as [po' ws]. specialize (IH (S i) (MkShard (upd i po' (x_ind x)) (apply_wops (x_file x) ws))).
  destruct (flush_ind_w n (S i) _) as [x' ws']. cbn [fst snd x_ind x_file] in *. destruct IH as (A & B & C). split; [|split].
  - rewrite A. unfold apply_wops. rewrite fold_left_app. reflexivity.
  - rewrite B. apply upd_length.
  - intros s L. rewrite C by lia. rewrite nth_error_upd. destruct (Nat.eqb_spec i s); [lia|reflexivity].
Qed.
Lemma firstn_pwrite f n off d : (n <= length f)%nat -> (n <= off)%nat -> firstn n (pwrite f off d) = firstn n f.
Proof.
  intros L1 L2. unfold pwrite. rewrite !firstn_app. rewrite firstn_firstn, firstn_length. replace (Nat.min n off) with n by lia.
  replace (n - Nat.min off (length f))%nat with 0%nat by lia. cbn [firstn]. rewrite app_nil_r. reflexivity.
Qed.
Lemma payload_one pend d : payload pend = put_uvarint d -> d32 d -> Forall d32 pend -> pend = [d].
Proof.
  intros E Hd F. destruct pend as [|d' rest].
  - pose proof (put_uvarint_nonempty d) as L. rewrite <- E in L. cbn in L. lia.
  - inv F. change (payload (d' :: rest)) with (put_uvarint d' ++ payload rest) in E. unfold d32 in *.
    pose proof (uvarint_put d' (payload rest) ltac:(lia)) as U1. pose proof (uvarint_put d [] ltac:(lia)) as U2. rewrite app_nil_r in U2. rewrite E, U2 in U1.
    assert (d' = d) as -> by congruence. f_equal. assert (X : payload rest = []).
    { apply (f_equal (@length N)) in E. rewrite app_length in E. destruct (payload rest); [reflexivity|cbn [length] in E; lia]. }
    pose proof (payload_length_ge rest) as L. rewrite X in L. destruct rest; [reflexivity|cbn [length] in L; lia].
Qed.

(** Stopped right after the link of slot [s] has been written. *)
Lemma link_cut x log c s : shard_inv x log c -> (s < num_slots)%nat -> touched s x -> (length (c s) <> 1)%nat -> c s <> [] ->
  exists L ds, shard_inv (fst (flush_ind_w s 0 x)) L c /\ sums 0 (concat (chunks s L) ++ ds) = c s /\ length ds = 1%nat /\ In s (map fst L) /\
    wops_cut (snd (flush_ind_w (length (x_ind x)) 0 x)) (x_file x) (firstn (log_size L) (render 0 (L ++ [(s, ds)]))).
Proof.
  intros I Ls (p & d & Ep & Pp & Hd) N1 N0. pose proof I as (I1 & _).
  destruct (flush_ind_inv s 0 x log c I) as (L & J & _); [lia|intros; lia|].
  destruct (flush_facts s 0 x) as (F1 & F2 & F3). specialize (F3 s ltac:(lia)). rewrite Ep in F3.
  pose proof (flush_split s (length (x_ind x) - s) 0 x) as Sp. replace (s + (length (x_ind x) - s))%nat with (length (x_ind x)) in Sp by (rewrite I1; lia).
  destruct (flush_ind_w s 0 x) as [x1 w1] eqn:E1. cbn [fst snd] in *.
  pose proof J as (J1 & J2 & J3 & J4 & J5). destruct (J5 s p F3) as (P1 & P2 & _ & _ & _ & pend & P6 & P7 & _ & P9).
  rewrite Pp in P6. assert (pend = [d]) as -> by (apply payload_one; auto).
  assert (Hin : In s (map fst L)).
  { destruct (in_dec Nat.eq_dec s (map fst L)) as [|Hout]; [assumption|]. exfalso. rewrite chunks_none in P9 by exact Hout. rewrite <- P9 in N1. apply N1. reflexivity. }
  exists L, [d]. split; [exact J|]. split; [exact P9|]. split; [reflexivity|]. split; [exact Hin|].
  rewrite Sp. assert ((length (x_ind x1) <=? 0 + s)%nat = false) as -> by (apply Nat.leb_gt; rewrite J1; lia).
  destruct (length (x_ind x) - s)%nat as [|b] eqn:Eb; [rewrite I1 in Eb; lia|]. cbn [flush_ind_w Nat.add]. rewrite F3.
  assert (Pd : p_posts p = payload [d]) by (rewrite Pp; unfold payload; cbn [map concat]; rewrite app_nil_r; reflexivity).
  pose proof (flush_to_spec s L p (x_file x1) [d] J2 P1 P2 Pd ltac:(discriminate)) as Fs.
  assert (Hl : p_link p <> (-1)%Z) by (rewrite P1; intros X; apply link_pos_none in X; contradiction).
  destruct (link_pos_range s L 0) as [X|Rg]; [rewrite P1 in Hl; contradiction|]. rewrite Nat.add_0_l in Rg.
  assert (Lf : length (x_file x1) = log_size L) by (rewrite J2; apply render_length).
  destruct (flush_to p (x_file x1)) as [p' ws] eqn:Ef. destruct Fs as [Fs _].
  destruct (flush_ind_w b _ _) as [x2 w2]. cbn [snd].
  assert (Ew : exists o2 d2 o3 d3, ws = [(Z.to_nat (p_link p), put_be64 (u64_of_i64 (Z.of_nat (length (x_file x1))))); (o2, d2); (o3, d3)] /\ (log_size L <= o2)%nat /\ (log_size L <= o3)%nat).
  { unfold flush_to in Ef. rewrite Pp in Ef. pose proof (put_uvarint_nonempty d) as Ln. destruct (put_uvarint d) as [|b0 bs]; [cbn in Ln; lia|].
    destruct (Z.eqb_spec (p_link p) (-1)); [contradiction|]. cbn [negb app] in Ef.
    assert (Ew := f_equal snd Ef). cbn [snd] in Ew. symmetry in Ew. do 4 eexists. split; [exact Ew|]. lia. }
  destruct Ew as (o2 & d2 & o3 & d3 & -> & L2 & L3). apply wops_cut_app. rewrite <- F1. cbn [app].
  rewrite <- Fs. cbn [apply_wops fold_left fst snd].
  set (g := pwrite (x_file x1) (Z.to_nat (p_link p)) _) in *.
  assert (Lg : length g = log_size L) by (unfold g; rewrite pwrite_length_in; [exact Lf|rewrite put_be64_length, Lf, P1; lia]).
  assert (G2 : (log_size L <= length (pwrite g o2 d2))%nat).
  { assert (X := f_equal (@length N) (firstn_pwrite g (log_size L) o2 d2 ltac:(lia) L2)). rewrite !firstn_length in X. lia. }
  rewrite firstn_pwrite by lia. rewrite firstn_pwrite by lia. rewrite firstn_all2 by lia.
  apply cut_later. apply cut_here.
Qed.
