(** A posting file to which a session has added, perhaps not completely: the chunks of the
    earlier sessions can still be read. *)
From Verif Require Import Model.Base Model.Address Model.Varint Model.Post Model.Poster Model.Shard Model.Crash Spec.Reading Proof.Tactics Proof.VarintP Proof.PosterP Proof.ShardP.
Local Open Scope N_scope.

(** [f] holds the chunks of [log], each linked to the next one of its slot; the link of a
    slot's last chunk may be anything. *)
Fixpoint keeps (base : nat) (log : list entry) (f : bytes) : Prop :=
  match log with
  | [] => True
  | (s, ds) :: r => exists lk f', f = chunk_hdr ds ++ payload ds ++ lk ++ f' /\ length lk = 8%nat /\
      (In s (map fst r) -> lk = link_bytes (next_off s (base + chunk_len ds) r)) /\ keeps (base + chunk_len ds) r f'
  end.
Lemma next_off_app s l1 : forall l2 base, In s (map fst l1) -> next_off s base (l1 ++ l2) = next_off s base l1.
Proof.
  induction l1 as [|[s' ds] r IH]; intros l2 base H; cbn [map fst In app next_off] in *; [contradiction|].
  destruct (Nat.eqb_spec s' s) as [E|E]; [reflexivity|]. apply IH. destruct H; [congruence|assumption].
Qed.
Lemma keeps_render log : forall base extra, keeps base log (render base (log ++ extra)).
Proof.
  induction log as [|[s ds] r IH]; intros base extra; cbn [keeps app render]; [exact I|].
  eexists _, _. split; [reflexivity|]. split; [apply link_bytes_length|]. split; [|apply IH].
  intros H. rewrite next_off_app by exact H. reflexivity.
Qed.
Lemma keeps_past log : forall base f off d, keeps base log f -> (log_size log <= off)%nat -> keeps base log (pwrite f off d).
Proof.
  induction log as [|[s ds] r IH]; intros base f off d K L; cbn [keeps log_size] in *; [exact I|].
  destruct K as (lk & f' & -> & Lk & H & K). exists lk, (pwrite f' (off - chunk_len ds) d). split; [|split; [exact Lk|split; [exact H|apply IH; [exact K|lia]]]].
  apply pwrite_past3. unfold chunk_len in *. lia.
Qed.
Lemma pwrite_in lk f d : (length d <= length lk)%nat -> pwrite (lk ++ f) 0 d = (d ++ skipn (length d) lk) ++ f.
Proof.
  intros L. unfold pwrite. cbn [firstn app Nat.sub repeat Nat.add]. rewrite skipn_app, <- app_assoc.
  replace (length d - length lk)%nat with 0%nat by lia. reflexivity.
Qed.
Lemma keeps_link s log : forall base f d, keeps base log f -> link_pos s base log <> (-1)%Z -> (length d <= 8)%nat ->
  keeps base log (pwrite f (Z.to_nat (link_pos s base log) - base) d).
Proof.
  induction log as [|[s' ds] r IH]; intros base f d K N0 L; cbn [keeps link_pos] in *; [exact I|].
  destruct K as (lk & f' & -> & Lk & H & K). pose proof (chunk_len_ge ds) as G.
  destruct (Z.eqb_spec (link_pos s (base + chunk_len ds) r) (-1)) as [E|E].
  - destruct (Nat.eqb_spec s' s) as [->|Ne]; [|contradiction]. exists (d ++ skipn (length d) lk), f'.
    split; [|split; [rewrite app_length, skipn_length; lia|split; [|exact K]]].
    + replace (Z.to_nat (Z.of_nat (base + chunk_len ds) - 8) - base)%nat with (length (chunk_hdr ds ++ payload ds) + 0)%nat by (rewrite app_length; unfold chunk_len; lia).
      rewrite app_assoc, pwrite_app_r, pwrite_in by lia. rewrite <- !app_assoc. reflexivity.
    + intros Hin. apply link_pos_none in E. contradiction.
  - exists lk, (pwrite f' (Z.to_nat (link_pos s (base + chunk_len ds) r) - (base + chunk_len ds)) d).
    split; [|split; [exact Lk|split; [exact H|apply IH; auto]]].
    destruct (link_pos_range s r (base + chunk_len ds)) as [|R]; [contradiction|].
    apply pwrite_past3. unfold chunk_len in *. lia.
Qed.
Lemma keeps_at l1 : forall base s ds l2 f, keeps base (l1 ++ (s, ds) :: l2) f ->
  exists lk f', skipn (log_size l1) f = chunk_hdr ds ++ payload ds ++ lk ++ f' /\ length lk = 8%nat /\
    (In s (map fst l2) -> lk = link_bytes (next_off s (base + log_size l1 + chunk_len ds) l2)).
Proof.
  induction l1 as [|[s' ds'] r IH]; intros base s ds l2 f K; cbn [app keeps log_size] in *.
  - destruct K as (lk & f' & -> & Lk & H & _). exists lk, f'. rewrite Nat.add_0_r. auto.
  - destruct K as (lk & f' & -> & Lk & _ & K). destruct (IH _ _ _ _ _ K) as (lk2 & f2 & E & L2 & H2).
    exists lk2, f2. split; [|split; [exact L2|]].
    + rewrite skipn_add. replace (chunk_len ds') with (length (chunk_hdr ds' ++ payload ds' ++ lk)) by (rewrite !app_length; unfold chunk_len; lia).
      replace (chunk_hdr ds' ++ payload ds' ++ lk ++ f') with ((chunk_hdr ds' ++ payload ds' ++ lk) ++ f') by (rewrite <- !app_assoc; reflexivity).
      rewrite skipn_app_exact by reflexivity. exact E.
    + rewrite Nat.add_assoc. exact H2.
Qed.

(** * Reading *)
(** The first results of Next are [ids]. *)
Fixpoint reads_first (f : bytes) (r : posts) (ids : list N) : Prop :=
  match ids with
  | [] => True
  | d :: rest => exists r', posts_next r f = Ok (d, r') /\ reads_first f r' rest
  end.
Lemma first_buffered f rest : forall todo i np cur done,
  i = length done ->
  reads_first f (MkPosts (length (done ++ todo)) np cur (done ++ todo)) rest ->
  reads_first f (MkPosts i np cur (done ++ todo)) (todo ++ rest).
Proof.
  induction todo as [|d t IH]; intros i np cur done -> H.
  - rewrite !app_nil_r in *. exact H.
  - cbn [app reads_first]. unfold posts_next. cbn [r_i r_docids r_nextpos r_current].
    assert ((length done =? length (done ++ d :: t))%nat = false) as ->
      by (rewrite app_length; cbn [length]; lia).
    cbn [bind r_i r_docids]. rewrite nth_error_app2, Nat.sub_diag by lia. cbn [nth_error].
    eexists. split; [reflexivity|].
    replace (done ++ d :: t) with ((done ++ [d]) ++ t) in * by (rewrite <- app_assoc; reflexivity).
    apply IH; [rewrite app_length; cbn [length]; lia|]. exact H.
Qed.
Lemma read_next_at f off s ds lk f' r : skipn off f = chunk_hdr ds ++ payload ds ++ lk ++ f' -> length lk = 8%nat -> entry_ok (s, ds) ->
  r_nextpos r = Z.of_nat off ->
  read_next r f = Ok (MkPosts 0 (i64_of_u64 (be64 lk)) (last (sums (r_current r) ds) (r_current r)) (sums (r_current r) ds)).
Proof.
  intros Sk Lk (Hne & Hd & Hp) Hr. cbn [snd] in *. unfold read_next. rewrite Hr.
  rewrite (read_varint_at_spec f off (Z.of_nat (length (payload ds) + 8)) _ ltac:(lia) Sk).
  cbn [wrap_err bind]. fold (chunk_hdr ds). unfold reader_buf.
  assert ((Z.of_nat (length (payload ds) + 8) <? 0)%Z || (530 <? Z.of_nat (length (payload ds) + 8))%Z = false) as ->
    by (apply orb_false_intro; lia).
  unfold zlen. rewrite <- Nat2Z.inj_add.
  replace (length (payload ds) + 8)%nat with (length (payload ds ++ lk)) by (rewrite app_length, Lk; reflexivity).
  rewrite (pread_skipn _ _ _ f').
  2: rewrite app_length; lia.
  2: rewrite skipn_add, Sk, skipn_app_exact by reflexivity; rewrite <- app_assoc; reflexivity.
  cbn [wrap_err bind]. rewrite app_length, Lk.
  replace (Z.of_nat (length (payload ds) + 8) - 8)%Z with (0 + Z.of_nat (length (payload ds)))%Z by lia.
  rewrite decode_chunk_spec; auto.
  pose proof (payload_length_ge ds); lia.
Qed.
Lemma chunks_none s l : ~ In s (map fst l) -> chunks s l = [].
Proof.
  unfold chunks. induction l as [|[s' ds] r IH]; intros H; [reflexivity|]. cbn [map fst In filter] in *.
  destruct (Nat.eqb_spec s' s) as [E|E]; [exfalso; auto|]. apply IH. tauto.
Qed.
Lemma first_log log s f : log_ok log -> (Z.of_nat (log_size log) < 9223372036854775808)%Z -> keeps 0 log f ->
  forall l2 l1 n cur ids, log = l1 ++ l2 -> n = length ids ->
  reads_first f (MkPosts n (next_off s (log_size l1) l2) cur ids) (sums cur (concat (chunks s l2))).
Proof.
  intros Hok Hsz K. induction l2 as [|[s' ds] r IH]; intros l1 n cur ids Hlog Hn.
  - cbn [chunks filter map concat sums reads_first]. exact I.
  - assert (log_size (l1 ++ [(s', ds)]) = (log_size l1 + chunk_len ds)%nat) as Hls
      by (rewrite log_size_app; cbn [log_size]; lia).
    destruct (Nat.eqb_spec s' s) as [->|Hs].
    + assert (chunks s ((s, ds) :: r) = ds :: chunks s r) as ->
        by (unfold chunks; cbn [filter fst]; rewrite Nat.eqb_refl; reflexivity).
      cbn [concat next_off]. rewrite Nat.eqb_refl, sums_app.
      assert (Eok : entry_ok (s, ds)) by (rewrite Hlog in Hok; apply Forall_app in Hok; destruct Hok as [_ Hok]; inv Hok; assumption).
      set (lst := last (sums cur ds) cur).
      pose proof K as K1. rewrite Hlog in K1. destruct (keeps_at l1 0 s ds r f K1) as (lk & f' & Sk & Lk & Hlk).
      rewrite Nat.add_0_l in Hlk.
      assert (reads_first f (MkPosts 0 (i64_of_u64 (be64 lk)) lst (sums cur ds)) (sums cur ds ++ sums lst (concat (chunks s r)))) as H.
      { apply (first_buffered _ _ (sums cur ds) 0 _ _ []); [reflexivity|]. cbn [app].
        destruct (in_dec Nat.eq_dec s (map fst r)) as [Hin|Hout].
        - rewrite (Hlk Hin). unfold link_bytes. rewrite <- (app_nil_r (put_be64 _)), be64_put by apply u64_of_i64_range.
          rewrite i64_u64.
          + rewrite <- Hls. apply IH; [|reflexivity]. rewrite <- app_assoc. exact Hlog.
          + destruct (next_off_range s r (log_size l1 + chunk_len ds)) as [->|R]; [lia|].
            rewrite Hlog, log_size_app in Hsz. cbn [log_size] in Hsz. lia.
        - rewrite chunks_none by exact Hout. exact I. }
      pose proof Eok as (Hne & _). cbn [snd] in Hne.
      destruct ds as [|d0 ds0]; [congruence|]. cbn [sums app] in H |- *. cbn [reads_first] in H |- *.
      destruct H as (r' & H1 & H2). exists r'. split; [|exact H2].
      rewrite <- H1. unfold posts_next at 1. cbn [r_i r_docids r_nextpos].
      assert ((n =? length ids)%nat = true) as -> by (apply Nat.eqb_eq; auto).
      destruct (Z.eqb_spec (Z.of_nat (log_size l1)) (-1)); [lia|].
      rewrite (read_next_at f (log_size l1) s (d0 :: ds0) lk f') by (auto; reflexivity).
      cbn [bind r_i r_docids r_current sums]. fold lst.
      unfold posts_next. cbn [r_i r_docids]. cbn [length Nat.eqb bind]. reflexivity.
    + assert (chunks s ((s', ds) :: r) = chunks s r) as ->
        by (unfold chunks; cbn [filter fst]; destruct (Nat.eqb_spec s' s); [congruence|reflexivity]).
      cbn [next_off]. destruct (Nat.eqb_spec s' s); [congruence|].
      rewrite <- Hls. apply IH; [|assumption]. rewrite <- app_assoc. exact Hlog.
Qed.

(** * Writing *)
Section W.
  Variable log0 : list entry.
  (** A shard that started from [log0]. *)
  Definition grown (x : shard) : Prop := exists extra,
    x_file x = render 0 (log0 ++ extra) /\
    forall s p, nth_error (x_ind x) s = Some p ->
      p_link p = link_pos s 0 (log0 ++ extra) /\ p_head p = next_off s 0 (log0 ++ extra) /\ exists pend, p_posts p = payload pend.
  Definition safe_op (w : wop) : Prop :=
    (log_size log0 <= fst w)%nat \/
    exists s, link_pos s 0 log0 <> (-1)%Z /\ fst w = Z.to_nat (link_pos s 0 log0) /\ (length (snd w) <= 8)%nat.
  Lemma safe_keeps w f : safe_op w -> keeps 0 log0 f -> keeps 0 log0 (pwrite f (fst w) (snd w)).
  Proof.
    intros [L|(s & N0 & E & L)] K; [apply keeps_past; auto|]. rewrite E. rewrite <- (Nat.sub_0_r (Z.to_nat _)). apply keeps_link; auto.
  Qed.
  Lemma cut_keeps ws f f' : wops_cut ws f f' -> Forall safe_op ws -> keeps 0 log0 f -> keeps 0 log0 f'.
  Proof.
    induction 1 as [ws f|off d1 d2 ws f|off d ws f f' C IH]; intros A K; auto; inv A.
    - apply (safe_keeps (off, d1)); [|exact K]. destruct H1 as [L|(s & N0 & E & L)]; [left; exact L|right; exists s].
      cbn [fst snd] in *. rewrite app_length in L. split; [exact N0|]. split; [exact E|]. lia.
    - apply IH; [assumption|]. apply (safe_keeps (off, d)); assumption.
  Qed.
  Lemma link_pos_app s l1 : forall l2 base, link_pos s base (l1 ++ l2) =
    if (link_pos s (base + log_size l1) l2 =? -1)%Z then link_pos s base l1 else link_pos s (base + log_size l1) l2.
  Proof.
    induction l1 as [|[s' ds] r IH]; intros l2 base; cbn [app link_pos log_size].
    - rewrite Nat.add_0_r. destruct (Z.eqb_spec (link_pos s base l2) (-1)); auto.
    - rewrite IH. rewrite <- Nat.add_assoc. destruct (Z.eqb_spec (link_pos s (base + (chunk_len ds + log_size r)) l2) (-1)) as [E|E]; [reflexivity|].
      destruct (Z.eqb_spec (link_pos s (base + (chunk_len ds + log_size r)) l2) (-1)); [contradiction|reflexivity].
  Qed.
  Lemma flush_safe s extra p f : f = render 0 (log0 ++ extra) -> p_link p = link_pos s 0 (log0 ++ extra) -> Forall safe_op (snd (flush_to p f)).
  Proof.
    intros -> Hl. assert (E : length (render 0 (log0 ++ extra)) = (log_size log0 + log_size extra)%nat) by (rewrite render_length, log_size_app; reflexivity).
    unfold flush_to. destruct (p_posts p) as [|b ps]; [constructor|]. cbn [snd]. apply Forall_app. split.
    - destruct (Z.eqb_spec (p_link p) (-1)) as [E1|E1]; cbn [negb]; [constructor|]. constructor; [|constructor].
      unfold safe_op. cbn [fst snd]. rewrite Hl, link_pos_app in *. rewrite Nat.add_0_l in *.
      destruct (Z.eqb_spec (link_pos s (log_size log0) extra) (-1)) as [E2|E2].
      + right. exists s. rewrite put_be64_length. auto.
      + left. destruct (link_pos_range s extra (log_size log0)) as [|R]; [contradiction|]. lia.
    - constructor; [|constructor; [|constructor]]; left; cbn [fst snd]; lia.
  Qed.
  Lemma flush_grown s extra p f pend : f = render 0 (log0 ++ extra) -> p_link p = link_pos s 0 (log0 ++ extra) -> p_head p = next_off s 0 (log0 ++ extra) ->
    p_posts p = payload pend ->
    exists extra', apply_wops f (snd (flush_to p f)) = render 0 (log0 ++ extra') /\ p_posts (fst (flush_to p f)) = payload [] /\
      p_link (fst (flush_to p f)) = link_pos s 0 (log0 ++ extra') /\ p_head (fst (flush_to p f)) = next_off s 0 (log0 ++ extra') /\
      (extra' = extra \/ exists ds, extra' = extra ++ [(s, ds)]).
  Proof.
    intros Hf Hl Hh Hp. destruct pend as [|d pend].
    - exists extra. assert (flush_to p f = (p, [])) as -> by (unfold flush_to; rewrite Hp; reflexivity). cbn [fst snd apply_wops fold_left]. auto 10.
    - pose proof (flush_to_spec s (log0 ++ extra) p f (d :: pend) Hf Hl Hh Hp ltac:(discriminate)) as Sp.
      destruct (flush_to p f) as [p' ws]. destruct Sp as [S1 S2]. cbn [fst snd]. exists (extra ++ [(s, d :: pend)]). rewrite app_assoc.
      split; [exact S1|]. subst p'. cbn [p_posts p_link p_head]. split; [reflexivity|]. split; [reflexivity|]. split; [reflexivity|]. eauto.
  Qed.
  Lemma linked_other s s' ds log (p : poster) : s' <> s -> p_link p = link_pos s 0 log -> p_head p = next_off s 0 log ->
    p_link p = link_pos s 0 (log ++ [(s', ds)]) /\ p_head p = next_off s 0 (log ++ [(s', ds)]).
  Proof.
    intros Ne H1 H2. rewrite link_pos_snoc, next_off_snoc. assert ((s' =? s)%nat = false) as -> by (apply Nat.eqb_neq; auto).
    split; [exact H1|]. rewrite H2. destruct (Z.eqb_spec (next_off s 0 log) (-1)); congruence.
  Qed.
  (** Replacing one poster. *)
  Lemma upd_grown x extra extra' s p' f' : x_file x = render 0 (log0 ++ extra) ->
    (forall s p, nth_error (x_ind x) s = Some p ->
      p_link p = link_pos s 0 (log0 ++ extra) /\ p_head p = next_off s 0 (log0 ++ extra) /\ exists pend, p_posts p = payload pend) ->
    f' = render 0 (log0 ++ extra') -> (extra' = extra \/ exists ds, extra' = extra ++ [(s, ds)]) ->
    p_link p' = link_pos s 0 (log0 ++ extra') -> p_head p' = next_off s 0 (log0 ++ extra') -> (exists pend, p_posts p' = payload pend) ->
    grown (MkShard (upd s p' (x_ind x)) f').
  Proof.
    intros Hf Hx Hf' He Hl Hh Hp. exists extra'. cbn [x_file x_ind]. split; [exact Hf'|]. intros s2 p2 E. rewrite nth_error_upd in E.
    destruct (Nat.eqb_spec s s2) as [<-|Ne].
    - destruct (nth_error (x_ind x) s); inv E. auto.
    - destruct (Hx _ _ E) as (H1 & H2 & H3). destruct He as [->|[ds ->]]; auto. rewrite app_assoc.
      destruct (linked_other s2 s ds _ p2 Ne H1 H2) as [H4 H5]. auto.
  Qed.
  Lemma serve_grown x p : grown x -> grown (serve_post x p) /\ Forall safe_op (snd (serve_post_w x p)).
  Proof.
    intros (extra & Hf & Hx). unfold serve_post, serve_post_w. set (h := N.to_nat (serve_slot p)).
    destruct (nth_error (x_ind x) h) as [po|] eqn:E; [|cbn [fst snd]; split; [exists extra; auto|constructor]].
    destruct (Hx _ _ E) as (H1 & H2 & pend & H3). unfold add_post.
    destruct ((p_current po =? post_docid p) && negb (p_total po =? 0)).
    { cbn [fst snd apply_wops fold_left]. split; [|constructor]. eapply (upd_grown x extra extra); eauto. }
    set (p1 := MkPoster _ _ _ _ _).
    assert (H4 : p_posts p1 = payload (pend ++ [sub32 (post_docid p) (p_current po)])).
    { unfold p1. cbn [p_posts]. rewrite payload_app, H3. f_equal. unfold payload. cbn [map concat]. rewrite app_nil_r. reflexivity. }
    destruct (flush_rate <=? length (p_posts p1))%nat.
    - destruct (flush_grown h extra p1 (x_file x) _ Hf H1 H2 H4) as (extra' & A1 & A2 & A3 & A4 & A5).
      pose proof (flush_safe h extra p1 (x_file x) Hf H1) as Sf.
      destruct (flush_to p1 (x_file x)) as [p' ws]. cbn [fst snd] in *. split; [|exact Sf].
      eapply (upd_grown x extra extra'); eauto.
    - cbn [fst snd apply_wops fold_left]. split; [|constructor]. eapply (upd_grown x extra extra); eauto.
  Qed.
  Lemma flush_ind_grown n : forall i x, grown x -> grown (fst (flush_ind_w n i x)) /\ Forall safe_op (snd (flush_ind_w n i x)).
  Proof.
    induction n as [|n IH]; intros i x G; cbn [flush_ind_w]; [split; [exact G|constructor]|].
    destruct (nth_error (x_ind x) i) as [po|] eqn:E; [|split; [exact G|constructor]].
    destruct G as (extra & Hf & Hx). destruct (Hx _ _ E) as (H1 & H2 & pend & H3).
    destruct (flush_grown i extra po (x_file x) _ Hf H1 H2 H3) as (extra' & A1 & A2 & A3 & A4 & A5).
    pose proof (flush_safe i extra po (x_file x) Hf H1) as Sf.
    destruct (flush_to po (x_file x)) as [p' ws]. cbn [fst snd] in *.
    assert (G1 : grown (MkShard (upd i p' (x_ind x)) (apply_wops (x_file x) ws))) by (eapply (upd_grown x extra extra'); eauto).
    destruct (IH (S i) _ G1) as [G2 S2]. destruct (flush_ind_w n (S i) _) as [x' ws']. cbn [fst snd] in *.
    split; [exact G2|]. apply Forall_app. auto.
  Qed.
  Lemma grown_keeps x : grown x -> keeps 0 log0 (x_file x).
  Proof. intros (extra & -> & _). apply keeps_render. Qed.
  Lemma inv_grown x c : shard_inv x log0 c -> grown x.
  Proof.
    intros (I1 & I2 & I3 & I4 & I5). exists []. rewrite app_nil_r. split; [exact I2|]. intros s p E.
    destruct (I5 s p E) as (H1 & H2 & _ & _ & _ & pend & H6 & _). eauto.
  Qed.
End W.
