(** Queries at different moments of a run of sessions: what they tell is right. *)
From Verif Require Import Model.Base Model.Utf8 Model.Token Model.Blotter Model.Address Model.Post Model.Poster Model.Shatter Model.Shard Model.Dmd Model.Fnames Model.Conc Model.Config Model.Json Model.Run Model.Index Model.Query Model.Session Model.Crash Model.Live Model.Varint Model.Moments Model.Timeline.
From Verif Require Import Spec.Text Spec.Fingerprint Spec.Configs Spec.Posting Spec.Postings Spec.Paths Spec.Reading Spec.Querying Spec.History Spec.Live.
From Verif Require Import Proof.Tactics Proof.VarintP Proof.TokenP Proof.BlotterP Proof.ShatterP Proof.IndexP2 Proof.DmdP Proof.FnamesP Proof.FnamesP2 Proof.PosterP Proof.ShardP Proof.ConcP Proof.ConcRun Proof.QueryP Proof.SessionP Proof.SessionP2 Proof.KeepP Proof.CrashP Proof.CrashP2 Proof.CrashP3 Proof.LiveP Proof.DamagedP3 Proof.PartlyP Proof.SoundP Proof.MomentsP.
From Coq Require Import Lia.
Local Open Scope N_scope.

(** * Writes *)
Definition chunk_ws (L : list entry) (s : nat) (ds : list N) : list wop :=
  (if (link_pos s 0 L =? -1)%Z then [] else [(Z.to_nat (link_pos s 0 L), link_bytes (Z.of_nat (log_size L)))]) ++
  [(log_size L, chunk_hdr ds); ((log_size L + length (chunk_hdr ds))%nat, payload ds ++ link_bytes (-1))].
(** The writes that take the file of one log to that of another, chunk after chunk. *)
Inductive flushes : list entry -> list wop -> list entry -> Prop :=
  | fl_nil L : flushes L [] L
  | fl_one L s ds W L' : apply_wops (render 0 L) (chunk_ws L s ds) = render 0 (L ++ [(s, ds)]) ->
      flushes (L ++ [(s, ds)]) W L' -> flushes L (chunk_ws L s ds ++ W) L'.
Lemma flushes_app a W1 b : flushes a W1 b -> forall W2 c, flushes b W2 c -> flushes a (W1 ++ W2) c.
Proof. induction 1 as [|L s ds W L' E Fl IH]; intros W2 c F2; [exact F2|]. rewrite <- app_assoc. constructor; auto. Qed.
Lemma flushes_more a W b : flushes a W b -> exists e, b = a ++ e.
Proof. induction 1 as [L|L s ds W L' E Fl [e IH]]; [exists []; rewrite app_nil_r; reflexivity|]. exists ((s, ds) :: e). rewrite IH, <- app_assoc. reflexivity. Qed.
Lemma flush_to_ws s L p f ds : f = render 0 L -> p_link p = link_pos s 0 L -> p_posts p = payload ds -> ds <> [] -> snd (flush_to p f) = chunk_ws L s ds.
Proof.
  intros Hf Hl Hp Hn. assert (Lf : length f = log_size L) by (rewrite Hf; apply render_length). unfold flush_to. rewrite Hp.
  destruct (payload ds) as [|b0 bs] eqn:Ep.
  { pose proof (payload_length_ge ds) as X. rewrite Ep in X. destruct ds; [contradiction|cbn [length] in X; lia]. }
  rewrite <- Ep. cbn [snd]. unfold chunk_ws. rewrite Lf, Hl. unfold chunk_hdr, zlen, link_bytes. rewrite app_length, put_be64_length. cbv zeta.
  destruct (link_pos s 0 L =? -1)%Z; reflexivity.
Qed.

Lemma flush_fl s log p ids f : f = render 0 log -> log_ok log -> poster_inv s log p ids ->
  exists log', apply_wops f (snd (flush_to p f)) = render 0 log' /\ log_ok log' /\
    poster_inv s log' (fst (flush_to p f)) ids /\ p_posts (fst (flush_to p f)) = [] /\
    (log' = log \/ exists ds, log' = log ++ [(s, ds)]) /\ flushes log (snd (flush_to p f)) log'.
Proof.
  intros Hf Hok (H1 & H2 & H3 & H4 & H5 & pend & H6 & H7 & H8 & H9).
  destruct pend as [|d pend].
  - exists log. assert (flush_to p f = (p, [])) as -> by (unfold flush_to; rewrite H6; reflexivity).
    cbn [fst snd apply_wops fold_left]. split; [auto|]. split; [auto|]. split; [repeat split; auto; exists []; auto|]. split; [exact H6|]. split; [auto|constructor].
  - set (ds := d :: pend) in *.
    pose proof (flush_to_spec s log p f ds Hf H1 H2 H6 ltac:(discriminate)) as Sp.
    pose proof (flush_to_ws s log p f ds Hf H1 H6 ltac:(discriminate)) as Ew.
    destruct (flush_to p f) as [p' ws]. destruct Sp as [S1 S2]. cbn [fst snd] in *.
    assert (Fl : flushes log ws (log ++ [(s, ds)])).
    { rewrite Ew. rewrite <- (app_nil_r (chunk_ws log s ds)). constructor; [rewrite <- Hf, <- Ew; exact S1|constructor]. }
    exists (log ++ [(s, ds)]). split; [exact S1|]. split.
    { apply Forall_app. split; [exact Hok|]. constructor; [|constructor].
      unfold entry_ok. cbn [snd]. repeat split; auto; [discriminate|lia]. }
    split; [|split; [subst p'; reflexivity|split; [eauto|exact Fl]]].
    subst p'. cbn [p_posts]. repeat split; eauto.
    exists []. cbn [p_posts]. repeat split; auto; [cbn; lia|].
    rewrite chunks_snoc, Nat.eqb_refl, concat_app. cbn [concat]. rewrite !app_nil_r. exact H9.
Qed.

(** AddPost with the flush left out. *)
Lemma add_post_fl s log p ids f v : f = render 0 log -> log_ok log -> poster_inv s log p ids ->
  d32 v -> nlen ids < 4294967296 ->
  exists log', apply_wops f (snd (add_post p v f)) = render 0 log' /\ log_ok log' /\
    poster_inv s log' (fst (add_post p v f)) (snoc_new ids v) /\
    (log' = log \/ exists ds, log' = log ++ [(s, ds)]) /\ flushes log (snd (add_post p v f)) log'.
Proof.
  intros Hf Hok Hinv Hv Hn.
  pose proof Hinv as (H1 & H2 & H3 & H4 & H5 & pend & H6 & H7 & H8 & H9).
  unfold add_post.
  assert (u32 (nlen ids) = nlen ids) as Eu by (unfold u32; lia).
  destruct ((p_current p =? v) && negb (p_total p =? 0)) eqn:E.
  - exists log. cbn [fst snd apply_wops fold_left].
    refine (conj (eq_sym _) (conj Hok (conj _ (conj (or_introl eq_refl) (fl_nil log))))); [auto|].
    apply andb_prop in E. destruct E as [E1 E2].
    assert (ids <> []) by (intros ->; rewrite H4 in E2; discriminate E2).
    assert (snoc_new ids v = ids) as ->; [|exact Hinv].
    unfold snoc_new. destruct ids; [congruence|]. rewrite <- H3, E1. reflexivity.
  - assert (snoc_new ids v = ids ++ [v]) as Es.
    { unfold snoc_new. destruct ids as [|i0 ids0]; [reflexivity|].
      rewrite <- H3. destruct (p_current p =? v); [|reflexivity].
      cbn [andb] in E. rewrite H4, Eu in E. unfold nlen in E. cbn [length] in E.
      destruct (N.eqb_spec (N.of_nat (S (length ids0))) 0); [lia|discriminate]. }
    set (delta := sub32 v (p_current p)).
    set (p1 := MkPoster _ _ _ _ _).
    assert (Hp1 : p_link p1 = link_pos s 0 log /\ p_head p1 = next_off s 0 log /\
      p_current p1 = last (ids ++ [v]) 0 /\ p_total p1 = u32 (nlen (ids ++ [v])) /\
      Forall d32 (ids ++ [v]) /\ p_posts p1 = payload (pend ++ [delta]) /\
      Forall d32 (pend ++ [delta]) /\ (length (payload (pend ++ [delta])) <= 516)%nat /\
      sums 0 (concat (chunks s log) ++ pend ++ [delta]) = ids ++ [v]).
    { unfold p1. cbn [p_link p_head p_current p_total p_posts].
      rewrite payload_app, last_snoc, H4, Eu.
      assert (payload [delta] = put_uvarint delta) as -> by (unfold payload; cbn [map concat]; apply app_nil_r).
      rewrite H6. repeat split; auto.
      - unfold nlen. rewrite app_length. cbn [length]. f_equal. lia.
      - apply Forall_app. auto.
      - apply Forall_app. split; [auto|]. constructor; [apply sub32_d32|constructor].
      - rewrite app_length.
        pose proof (put_uvarint_len32 delta (sub32_d32 v (p_current p))). lia.
      - rewrite app_assoc, sums_last_snoc, H9. do 2 f_equal. unfold delta. rewrite H3.
        apply add32_sub32; [apply last_d32|]; assumption. }
    destruct Hp1 as (P1 & P2 & P3 & P4 & P5 & P6 & P7 & P8 & P9).
    destruct (Nat.leb_spec flush_rate (length (p_posts p1))) as [L|L].
    + assert (pend ++ [delta] <> []) as Hne by (destruct pend; discriminate).
      pose proof (flush_to_spec s log p1 f (pend ++ [delta]) Hf P1 P2 P6 Hne) as Sp.
      pose proof (flush_to_ws s log p1 f (pend ++ [delta]) Hf P1 P6 Hne) as Ew.
      destruct (flush_to p1 f) as [p' ws]. destruct Sp as [S1 S2]. cbn [fst snd] in *.
      assert (Fl : flushes log ws (log ++ [(s, pend ++ [delta])])).
      { rewrite Ew. rewrite <- (app_nil_r (chunk_ws _ _ _)). constructor; [rewrite <- Hf, <- Ew; exact S1|constructor]. }
      exists (log ++ [(s, pend ++ [delta])]). split; [exact S1|]. split.
      { apply Forall_app. split; [exact Hok|]. constructor; [|constructor].
        unfold entry_ok. cbn [snd]. auto. }
      split; [|split; [eauto|exact Fl]]. subst p'. rewrite Es. unfold poster_inv.
      cbn [p_link p_head p_current p_total p_posts]. repeat split; auto.
      exists []. repeat split; auto; [cbn; lia|].
      rewrite chunks_snoc, Nat.eqb_refl, concat_app. cbn [concat]. rewrite !app_nil_r. exact P9.
    + exists log. cbn [fst snd apply_wops fold_left].
      refine (conj (eq_sym _) (conj Hok (conj _ (conj (or_introl eq_refl) (fl_nil log))))); [auto|].
      rewrite Es. repeat split; auto.
      exists (pend ++ [delta]). unfold flush_rate in L. rewrite P6 in L. auto.
Qed.


(** * A shard's writes *)
Fixpoint serve_ws (x : shard) (ps : list post) : list wop :=
  match ps with [] => [] | p :: r => snd (serve_post_w x p) ++ serve_ws (serve_post x p) r end.
Lemma apply_wops_app f a b : apply_wops f (a ++ b) = apply_wops (apply_wops f a) b.
Proof. unfold apply_wops. apply fold_left_app. Qed.
Lemma serve_post_file x p : x_file (serve_post x p) = apply_wops (x_file x) (snd (serve_post_w x p)).
Proof. unfold serve_post, serve_post_w. destruct (nth_error _ _) as [po|]; [|reflexivity]. destruct (add_post _ _ _) as [po' ws]. reflexivity. Qed.
Lemma serve_ws_file ps : forall x, x_file (serve_batch x ps) = apply_wops (x_file x) (serve_ws x ps).
Proof.
  induction ps as [|p ps IH]; intros x; [reflexivity|]. cbn [serve_ws]. change (serve_batch x (p :: ps)) with (serve_batch (serve_post x p) ps).
  rewrite IH, apply_wops_app, serve_post_file. reflexivity.
Qed.
Lemma serve_ws_app a : forall x b, serve_ws x (a ++ b) = serve_ws x a ++ serve_ws (serve_batch x a) b.
Proof.
  induction a as [|p a IH]; intros x b; cbn [app serve_ws]; [reflexivity|]. rewrite IH, <- app_assoc. reflexivity.
Qed.
Lemma serve_fl x log c p : shard_inv x log c -> nlen (c (ShardP.slot_of p)) < 4294967296 ->
  exists log', shard_inv (serve_post x p) log' (add_to c p) /\ flushes log (snd (serve_post_w x p)) log'.
Proof.
  intros I Hn. pose proof I as (I1 & I2 & I3 & I4 & I5).
  unfold serve_post, serve_post_w, serve_slot. rewrite land_ffff. fold (ShardP.slot_of p).
  pose proof (ShardP.slot_of_lt p) as Hs.
  destruct (nth_error (x_ind x) (ShardP.slot_of p)) as [po|] eqn:E.
  2: apply nth_error_None in E; lia.
  destruct (add_post_fl _ log po _ (x_file x) (post_docid p) I2 I3 (I5 _ _ E) (post_docid_d32 p) Hn)
    as (log' & L1 & L2 & L3 & L4 & L5).
  destruct (add_post po (post_docid p) (x_file x)) as [po' ws]. cbn [fst snd] in *.
  exists log'. split; [|exact L5]. eapply upd_inv; eauto.
  - unfold add_to. rewrite Nat.eqb_refl. exact L3.
  - intros s' Hne. unfold add_to. destruct (Nat.eqb_spec s' (ShardP.slot_of p)); congruence.
Qed.
Lemma serve_batch_fl ps : forall x log hist,
  shard_inv x log (content_of hist) -> bounded (hist ++ ps) ->
  exists log', shard_inv (serve_batch x ps) log' (content_of (hist ++ ps)) /\ flushes log (serve_ws x ps) log'.
Proof.
  induction ps as [|p ps IH]; intros x log hist I B; cbn [serve_batch fold_left serve_ws].
  - exists log. rewrite app_nil_r. split; [exact I|constructor].
  - destruct (serve_fl x log _ p I) as (log1 & I1 & F1).
    { apply (bounded_app_l hist (p :: ps) B). }
    eapply shard_inv_ext in I1; [|intros s; apply add_to_content].
    replace (hist ++ p :: ps) with ((hist ++ [p]) ++ ps) in * by (rewrite <- app_assoc; reflexivity).
    destruct (IH _ _ _ I1 B) as (log2 & J & F2). exists log2. split; [exact J|]. eapply flushes_app; eauto.
Qed.
Lemma flush_ind_fl n : forall i x log c,
  shard_inv x log c -> (i + n <= num_slots)%nat ->
  (forall s p, (s < i)%nat -> nth_error (x_ind x) s = Some p -> p_posts p = []) ->
  exists log', shard_inv (fst (flush_ind_w n i x)) log' c /\ flushes log (snd (flush_ind_w n i x)) log' /\
    forall s p, (s < i + n)%nat -> nth_error (x_ind (fst (flush_ind_w n i x))) s = Some p -> p_posts p = [].
Proof.
  induction n as [|n IH]; intros i x log c I Hi Hd; cbn [flush_ind_w].
  - exists log. cbn [fst snd]. rewrite Nat.add_0_r. split; [exact I|]. split; [constructor|auto].
  - pose proof I as (I1 & I2 & I3 & I4 & I5).
    destruct (nth_error (x_ind x) i) as [po|] eqn:E.
    2: apply nth_error_None in E; lia.
    destruct (flush_fl i log po _ (x_file x) I2 I3 (I5 _ _ E)) as (log1 & L1 & L2 & L3 & L4 & L5 & L6).
    destruct (flush_to po (x_file x)) as [po' ws]. cbn [fst snd] in *.
    set (x1 := MkShard _ _).
    assert (shard_inv x1 log1 c) as Ix1 by (eapply upd_inv; eauto; lia).
    destruct (IH (S i) x1 log1 c Ix1 ltac:(lia)) as (log2 & J1 & F2 & J2).
    { intros s p Hs H. unfold x1 in H. cbn [x_ind] in H. rewrite nth_error_upd in H.
      destruct (Nat.eqb_spec i s) as [<-|Hne].
      - rewrite E in H. inv H. exact L4.
      - apply (Hd s); [lia | exact H]. }
    destruct (flush_ind_w n (S i) x1) as [x2 ws']. cbn [fst snd] in *.
    exists log2. split; [exact J1|]. split; [eapply flushes_app; eauto|]. intros s p Hs. apply J2. lia.
Qed.
Lemma flush_ind_spec_fl x log c : shard_inv x log c ->
  exists log', shard_inv (flush_ind x) log' c /\ flushed (flush_ind x) /\ flushes log (snd (flush_ind_w (length (x_ind x)) 0 x)) log'.
Proof.
  intros I. pose proof I as (I1 & _). unfold flush_ind. rewrite I1.
  destruct (flush_ind_fl num_slots 0 x log c I) as (log' & J1 & F1 & J2); [lia| intros; lia |].
  exists log'. split; [exact J1|]. split; [|exact F1]. apply Forall_forall. intros p Hp.
  apply In_nth_error in Hp. destruct Hp as [s Hs].
  apply (J2 s); [|exact Hs]. pose proof J1 as (K1 & _). rewrite <- K1. apply nth_error_Some. congruence.
Qed.

(** * What is seen of a log *)
Definition shown (L0 L : list entry) (f : bytes) : Prop :=
  exists e l2 tl, L = (L0 ++ e) ++ l2 /\ ends tl 0 (L0 ++ e) f /\
    (forall s, tl s = link_bytes (-1) \/ exists ds r, l2 = (s, ds) :: r /\ tl s = link_bytes (Z.of_nat (log_size (L0 ++ e)))) /\
    (skipn (log_size (L0 ++ e)) f = [] \/ exists s ds r t2, l2 = (s, ds) :: r /\
       chunk_hdr ds ++ payload ds ++ link_bytes (-1) = skipn (log_size (L0 ++ e)) f ++ t2).
Lemma shown_now L e : shown L (L ++ e) (render 0 L).
Proof.
  exists [], e, (fun _ => link_bytes (-1)). rewrite app_nil_r. split; [reflexivity|]. split; [apply ends_render|]. split; [auto|].
  left. rewrite <- (render_length L 0). apply skipn_all.
Qed.
Lemma shown_earlier L0 e L f : shown (L0 ++ e) L f -> shown L0 L f.
Proof. intros (e1 & l2 & tl & E). rewrite <- !app_assoc in E. exists (e ++ e1), l2, tl. rewrite <- !app_assoc in *. exact E. Qed.
Lemma shown_later L0 L e f : shown L0 L f -> shown L0 (L ++ e) f.
Proof.
  intros (e1 & l2 & tl & -> & E1 & E2 & E3). exists e1, (l2 ++ e), tl. split; [rewrite <- !app_assoc; reflexivity|]. split; [exact E1|]. split.
  - intros s. destruct (E2 s) as [X|(ds & r & -> & X)]; [auto|]. right. exists ds, (r ++ e). auto.
  - destruct E3 as [X|(s & ds & r & t2 & -> & X)]; [auto|]. right. exists s, ds, (r ++ e), t2. auto.
Qed.
Lemma seen_cons w ws a a' : wops_seen (w :: ws) a a' -> a' = a \/ (fst w = length a /\ exists d1 d2, snd w = d1 ++ d2 /\ a' = a ++ d1) \/ wops_seen ws (pwrite a (fst w) (snd w)) a'.
Proof. intros Cw. inversion Cw; subst; cbn [fst snd]; eauto 10. Qed.
Lemma flushes_shown L W L' : flushes L W L' -> forall f, wops_seen W (render 0 L) f -> shown L L' f.
Proof.
  induction 1 as [L|L s ds W L' E Fl IH]; intros f C.
  - inversion C; subst. pose proof (shown_now L []) as X. rewrite app_nil_r in X. exact X.
  - destruct (flushes_more _ _ _ Fl) as [e ->].
    assert (Next : wops_seen W (render 0 (L ++ [(s, ds)])) f -> shown L ((L ++ [(s, ds)]) ++ e) f) by (intros X; eapply shown_earlier, IH, X).
    assert (After : forall tl g, length g = log_size L -> ends tl 0 L g -> (forall s', tl s' = link_bytes (-1) \/ s' = s /\ tl s' = link_bytes (Z.of_nat (log_size L))) ->
      apply_wops g [(log_size L, chunk_hdr ds); ((log_size L + length (chunk_hdr ds))%nat, payload ds ++ link_bytes (-1))] = render 0 (L ++ [(s, ds)]) ->
      wops_seen ([(log_size L, chunk_hdr ds); ((log_size L + length (chunk_hdr ds))%nat, payload ds ++ link_bytes (-1))] ++ W) g f -> shown L ((L ++ [(s, ds)]) ++ e) f).
    { intros tl g Lg Eg Tl Ea Cg.
      assert (Td : forall t t2, chunk_hdr ds ++ payload ds ++ link_bytes (-1) = t ++ t2 -> shown L ((L ++ [(s, ds)]) ++ e) (g ++ t)).
      { intros t t2 Et. exists [], ((s, ds) :: e), tl. rewrite !app_nil_r. split; [rewrite <- app_assoc; reflexivity|].
        split; [rewrite <- pwrite_end; apply ends_past; [exact Eg|lia]|]. split.
        - intros s'. destruct (Tl s') as [X|[-> X]]; [auto|]. right. eauto.
        - right. exists s, ds, e, t2. split; [reflexivity|]. rewrite <- Lg, skipn_app, skipn_all, Nat.sub_diag. exact Et. }
      cbn [app] in Cg. destruct (seen_cons _ _ _ _ Cg) as [->|[(_ & d1 & d2 & Ed & ->)|C2]]; cbn [fst snd] in *.
      - rewrite <- (app_nil_r g). apply (Td [] _ eq_refl).
      - apply (Td d1 (d2 ++ payload ds ++ link_bytes (-1))). rewrite Ed, <- app_assoc. reflexivity.
      - rewrite <- Lg, pwrite_end in C2. destruct (seen_cons _ _ _ _ C2) as [->|[(_ & d1 & d2 & Ed & ->)|C3]]; cbn [fst snd] in *.
        + apply (Td (chunk_hdr ds) _ eq_refl).
        + rewrite <- (app_assoc g). apply (Td (chunk_hdr ds ++ d1) d2). rewrite Ed, <- app_assoc. reflexivity.
        + apply Next. rewrite <- Ea. cbn [apply_wops fold_left fst snd]. rewrite <- Lg, pwrite_end. exact C3. }
    unfold chunk_ws in C, E. destruct (Z.eqb_spec (link_pos s 0 L) (-1)) as [El|El].
    + apply (After (fun _ => link_bytes (-1)) (render 0 L)); auto; [apply render_length|apply ends_render].
    + cbn [app] in C. destruct (link_pos_range s L 0) as [X|Rg]; [contradiction|]. rewrite Nat.add_0_l in Rg.
      pose proof (render_length L 0) as Lr.
      destruct (seen_cons _ _ _ _ C) as [->|[(X & _)|C2]]; cbn [fst snd] in *.
      * rewrite <- app_assoc. apply shown_now.
      * exfalso. lia.
      * apply (After (torn (fun _ => link_bytes (-1)) s (link_bytes (Z.of_nat (log_size L)))) (pwrite (render 0 L) (Z.to_nat (link_pos s 0 L)) (link_bytes (Z.of_nat (log_size L))))).
        -- rewrite pwrite_length_in; [exact Lr|]. rewrite link_bytes_length. lia.
        -- pose proof (ends_link _ s L 0 (render 0 L) (link_bytes (Z.of_nat (log_size L))) (ends_render L 0) El) as Y. rewrite link_bytes_length, Nat.sub_0_r in Y. apply Y. lia.
        -- intros s'. unfold torn. destruct (Nat.eqb_spec s' s) as [->|]; [|auto]. right. split; [reflexivity|].
           rewrite link_bytes_length. change (skipn 8 (link_bytes (-1))) with (@nil N). apply app_nil_r.
        -- exact E.
        -- exact C2.
Qed.

Lemma app_split {A} (a : list A) : forall b c d, a ++ b = c ++ d ->
  (exists m, c = a ++ m /\ b = m ++ d) \/ (exists m, a = c ++ m /\ d = m ++ b).
Proof.
  induction a as [|x a IH]; intros b c d E; [left; exists c; auto|]. destruct c as [|y c]; [right; exists (x :: a); auto|].
  cbn [app] in E. assert (y = x) as -> by congruence. assert (E' : a ++ b = c ++ d) by congruence.
  destruct (IH _ _ _ E') as [(m & -> & ->)|(m & -> & ->)]; [left|right]; exists m; auto.
Qed.
(** A chunk, as it is seen at [off]: with a link that is [good], or in part. *)
Definition chunk_at (off : nat) (ds : list N) (good : bytes -> Prop) (f : bytes) : Prop :=
  (exists lk f', skipn off f = chunk_hdr ds ++ payload ds ++ lk ++ f' /\ length lk = 8%nat /\ good lk) \/
  (exists a b, chunk_hdr ds ++ payload ds ++ link_bytes (-1) = a ++ b /\ b <> [] /\ skipn off f = a).
Lemma shown_chunk L0 L f l1 s ds r : shown L0 L f -> L = l1 ++ (s, ds) :: r ->
  chunk_at (log_size l1) ds (fun lk => lk = link_bytes (-1) \/ lk = link_bytes (next_off s (log_size l1 + chunk_len ds) r)) f.
Proof.
  intros (e & l2 & tl & EL & K & Tl & Tail) E. revert EL K Tl Tail. generalize (L0 ++ e). intros A EL K Tl Tail. rewrite EL in E. clear EL.
  assert (Nn : chunk_hdr ds ++ payload ds ++ link_bytes (-1) <> []) by (unfold link_bytes, put_be64; destruct (chunk_hdr ds), (payload ds); discriminate).
  destruct (app_split _ _ _ _ E) as [(q & El & El2)|(q & EA & El)].
  - destruct q as [|[s' ds'] q].
    + (* the chunk is the next one *)
      cbn [app] in El2. rewrite app_nil_r in El. subst l1 l2. destruct Tail as [T|(s2 & ds2 & r2 & t2 & Eq & T)].
      * right. exists [], (chunk_hdr ds ++ payload ds ++ link_bytes (-1)). auto.
      * assert (ds2 = ds) as -> by congruence. destruct t2 as [|b t2].
        -- left. exists (link_bytes (-1)), []. rewrite !app_nil_r in *. split; [auto|]. split; [apply link_bytes_length|auto].
        -- right. exists (skipn (log_size A) f), (b :: t2). split; [exact T|]. split; [discriminate|reflexivity].
    + (* later *)
      right. exists [], (chunk_hdr ds ++ payload ds ++ link_bytes (-1)). split; [reflexivity|]. split; [exact Nn|].
      assert (Lt : (length (skipn (log_size A) f) <= chunk_len ds')%nat).
      { destruct Tail as [->|(s2 & ds2 & r2 & t2 & Eq & T)]; [cbn [length]; lia|]. rewrite El2 in Eq. cbn [app] in Eq. assert (ds2 = ds') as -> by congruence.
        apply (f_equal (@length N)) in T. rewrite !app_length, link_bytes_length in T. unfold chunk_len. lia. }
      rewrite skipn_length in Lt. apply skipn_all2. rewrite El, log_size_app. cbn [log_size]. lia.
  - destruct q as [|[s' ds'] q].
    + cbn [app] in El. rewrite app_nil_r in EA. subst A l2. destruct Tail as [T|(s2 & ds2 & r2 & t2 & Eq & T)].
      * right. exists [], (chunk_hdr ds ++ payload ds ++ link_bytes (-1)). auto.
      * assert (ds2 = ds) as -> by congruence. destruct t2 as [|b t2].
        -- left. exists (link_bytes (-1)), []. rewrite !app_nil_r in *. split; [auto|]. split; [apply link_bytes_length|auto].
        -- right. exists (skipn (log_size l1) f), (b :: t2). split; [exact T|]. split; [discriminate|reflexivity].
    + cbn [app] in El. assert (s' = s) as -> by congruence. assert (ds' = ds) as -> by congruence. assert (Er : r = q ++ l2) by congruence. clear El. subst A r.
      destruct (ends_at tl l1 0 s ds q f K) as (lk & f' & Sk & Lk & H1 & H2). rewrite Nat.add_0_l in H1.
      left. exists lk, f'. split; [exact Sk|]. split; [exact Lk|]. rewrite next_off_app.
      destruct (in_dec Nat.eq_dec s (map fst q)) as [Hin|Hout].
      * right. destruct (Z.eqb_spec (next_off s (log_size l1 + chunk_len ds) q) (-1)) as [X|X]; [|auto].
        exfalso. apply PosterP.next_off_none in X. contradiction.
      * rewrite (H2 Hout). destruct (Tl s) as [X|(ds2 & r2 & -> & X)]; [auto|]. right. rewrite X.
        assert (next_off s (log_size l1 + chunk_len ds) q = (-1)%Z) as -> by (apply PosterP.next_off_none; exact Hout). change (-1 =? -1)%Z with true. cbn [next_off]. rewrite Nat.eqb_refl.
        rewrite log_size_app. cbn [log_size]. do 2 f_equal. lia.
Qed.

(** * Reading at different moments *)
Lemma pread_one f pos d : pread f (Z.of_nat pos) 1 = Ok d -> exists x, d = [x] /\ nth_error f pos = Some x.
Proof.
  unfold pread, zlen. assert ((Z.of_nat pos <? 0)%Z = false) as -> by lia. change (1 <=? 0)%Z with false. cbn iota.
  destruct (Z.leb_spec (Z.of_nat pos + 1) (Z.of_nat (length f))) as [L|L]; [|discriminate]. rewrite Nat2Z.id. change (Z.to_nat 1) with 1%nat. intros X.
  destruct (nth_error f pos) as [x|] eqn:E; [|apply nth_error_None in E; lia]. exists x. split; [|reflexivity].
  destruct (nth_error_split _ _ E) as (l1 & l2 & -> & <-). rewrite skipn_app_exact in X by reflexivity. cbn [firstn] in X. congruence.
Qed.
Lemma varint_seen f p b : b < 128 -> forall l, Forall (fun c => 128 <= c) l ->
  forall fuel t n buf v' n' t', (forall t i x, (i <= length l)%nat -> nth_error (f t) (p + n + i) = Some x -> nth_error (l ++ [b]) i = Some x) ->
  read_varint_during f fuel t (Z.of_nat p) (Z.of_nat n) buf = Ok (v', n', t') ->
  (exists m, varint (buf ++ l ++ [b]) = (v', m)) /\ n' = Z.of_nat (n + length l + 1).
Proof.
  intros Hb. induction l as [|c l IH]; intros Hl [|k] t n buf v' n' t' H E; cbn [read_varint_during] in E; try discriminate; rewrite <- Nat2Z.inj_add in E;
    destruct (pread (f t) (Z.of_nat (p + n)) 1) as [d| | |] eqn:Ep; cbn [bind] in E; try discriminate; destruct (pread_one _ _ _ Ep) as (x & -> & Ex);
    rewrite <- (Nat.add_0_r (p + n)) in Ex; apply H in Ex; try (cbn [length]; lia); cbn [app nth_error] in Ex.
  - assert (x = b) as -> by congruence. assert ((b <? 128) = true) as X by lia. rewrite X in E. cbn [app]. destruct (varint (buf ++ [b])) as [v m]. destruct (m <=? 0)%Z; [discriminate|].
    assert (v = v') as -> by congruence. split; [eauto|]. cbn [length]. assert ((Z.of_nat n + 1)%Z = n') as <- by congruence. lia.
  - assert (x = c) as -> by congruence. inv Hl. assert ((c <? 128) = false) as X by lia. rewrite X in E. replace (Z.of_nat n + 1)%Z with (Z.of_nat (S n)) in E by lia.
    destruct (IH H3 k (S t) (S n) (buf ++ [c]) v' n' t') as [[m A] B]; [|exact E|].
    + intros t2 i y Hi Ey. specialize (H t2 (S i) y). cbn [length app nth_error] in H. apply H; [lia|]. rewrite <- Ey. f_equal. lia.
    + split; [|cbn [length]; lia]. exists m. rewrite <- A, <- app_assoc. reflexivity.
Qed.
Lemma next_seen f off s ds good r t p' t' : (forall t, chunk_at off ds good (f t)) -> entry_ok (s, ds) -> r_nextpos r = Z.of_nat off ->
  read_next_during f t r = Ok (p', t') ->
  exists lk, good lk /\ p' = MkPosts 0 (i64_of_u64 (be64 lk)) (last (sums (r_current r) ds) (r_current r)) (sums (r_current r) ds).
Proof.
  intros Sk (Hne & Hd & Hp) Hr E. cbn [snd] in *. unfold read_next_during in E. rewrite Hr in E.
  set (z := Z.of_nat (length (payload ds) + 8)).
  assert (Hz : (-9223372036854775808 <= z < 9223372036854775808)%Z) by (unfold z; lia).
  assert (Hh : forall t i x, (i < length (chunk_hdr ds))%nat -> nth_error (f t) (off + i) = Some x -> nth_error (chunk_hdr ds) i = Some x).
  { intros t0 i x Hi Ex. rewrite <- nth_skip in Ex. destruct (Sk t0) as [(lk & f' & E1 & _)|(a & b & E1 & _ & E2)].
    - rewrite E1, nth_error_app1 in Ex by exact Hi. exact Ex.
    - rewrite E2 in Ex. rewrite <- (nth_error_app1 (chunk_hdr ds) (payload ds ++ link_bytes (-1))) by exact Hi. rewrite E1.
      rewrite nth_error_app1 by (eapply nth_len, Ex). exact Ex. }
  destruct (read_varint_during f max_varint_len64 t (Z.of_nat off) 0 []) as [[[v n1] t1]|[]| |] eqn:Ev; cbn [wrap_err bind] in E; try discriminate.
  assert (v = z /\ n1 = zlen (chunk_hdr ds)) as [-> ->].
  { pose proof (varint_put z [] Hz) as V. rewrite app_nil_r in V.
    destruct (put_uvarint_shape (zigzag z) (zigzag_range z Hz)) as (l & b & Es & Hb & Hl).
    assert (Eh : chunk_hdr ds = l ++ [b]) by (unfold chunk_hdr, put_varint; exact Es).
    destruct (varint_seen f off b Hb l Hl max_varint_len64 t 0 [] v n1 t1) as [[m A] B].
    - intros t2 i x Hi Ex. rewrite <- Eh. apply (Hh t2); [rewrite Eh, app_length; cbn [length]; lia|]. rewrite <- Ex. f_equal. lia.
    - exact Ev.
    - cbn [app] in A. unfold put_varint in V. rewrite Es in V. rewrite A in V. split; [congruence|]. rewrite B, Eh. unfold zlen. rewrite app_length. cbn [length]. lia. }
  unfold reader_buf, z in E.
  assert ((Z.of_nat (length (payload ds) + 8) <? 0)%Z || (530 <? Z.of_nat (length (payload ds) + 8))%Z = false) as X
    by (apply orb_false_intro; lia). rewrite X in E. clear X.
  unfold zlen in E. rewrite <- Nat2Z.inj_add in E.
  destruct (Sk t1) as [(lk & f' & Sk' & Lk & El)|(a & b & E1 & Nb & E2)].
  - exists lk. split; [exact El|].
    replace (length (payload ds) + 8)%nat with (length (payload ds ++ lk)) in E by (rewrite app_length, Lk; reflexivity).
    rewrite (pread_skipn _ _ _ f') in E.
    2: rewrite app_length; lia.
    2: rewrite skipn_add, Sk', skipn_app_exact by reflexivity; rewrite <- app_assoc; reflexivity.
    cbn [wrap_err bind] in E. rewrite app_length, Lk in E.
    replace (Z.of_nat (length (payload ds) + 8) - 8)%Z with (0 + Z.of_nat (length (payload ds)))%Z in E by lia.
    rewrite decode_chunk_spec in E; auto; [cbn [bind] in E; symmetry; exact (f_equal (fun q => match q with Ok (a, _) => a | _ => p' end) E)|]. pose proof (payload_length_ge ds); lia.
  - exfalso. assert (Lf : (length (f t1) < off + length (chunk_hdr ds) + (length (payload ds) + 8))%nat \/ (length (f t1) <= off)%nat).
    { apply (f_equal (@length N)) in E1, E2. rewrite skipn_length in E2. rewrite !app_length, link_bytes_length in E1.
      destruct b; [contradiction|]. cbn [length] in E1. lia. }
    unfold pread, zlen in E. assert ((Z.of_nat (off + length (chunk_hdr ds)) <? 0)%Z = false) as X1 by lia. rewrite X1 in E.
    assert ((Z.of_nat (length (payload ds) + 8) <=? 0)%Z = false) as X2 by lia. rewrite X2 in E.
    assert ((Z.of_nat (off + length (chunk_hdr ds)) + Z.of_nat (length (payload ds) + 8) <=? Z.of_nat (length (f t1)))%Z = false) as X3 by lia. rewrite X3 in E.
    cbn [wrap_err bind] in E. discriminate.
Qed.
(** Whatever Next returns, whenever it is called, is the next of [ids]. *)
Fixpoint within_during (f : nat -> bytes) (r : posts) (ids : list N) : Prop :=
  match ids with
  | [] => forall t d r' t', posts_next_during f t r <> Ok (d, r', t')
  | x :: rest => forall t d r' t', posts_next_during f t r = Ok (d, r', t') -> d = x /\ within_during f r' rest
  end.
Lemma during_none f r ids : (forall t d r' t', posts_next_during f t r <> Ok (d, r', t')) -> within_during f r ids.
Proof. intros H. destruct ids; cbn [within_during]; [exact H|]. intros t d r' t' E. destruct (H _ _ _ _ E). Qed.
Lemma during_ended f ids0 cur ids : within_during f (MkPosts (length ids0) (-1) cur ids0) ids.
Proof. apply during_none. intros t d r' t'. unfold posts_next_during. cbn [r_i r_docids r_nextpos]. rewrite Nat.eqb_refl. change (-1 =? -1)%Z with true. discriminate. Qed.
Lemma during_from f rest : forall todo i np cur done,
  i = length done ->
  within_during f (MkPosts (length (done ++ todo)) np cur (done ++ todo)) rest ->
  within_during f (MkPosts i np cur (done ++ todo)) (todo ++ rest).
Proof.
  induction todo as [|d t IH]; intros i np cur done -> H.
  - rewrite !app_nil_r in *. exact H.
  - cbn [app within_during]. intros t0 d' r' t'. unfold posts_next_during. cbn [r_i r_docids r_nextpos r_current].
    assert ((length done =? length (done ++ d :: t))%nat = false) as ->
      by (rewrite app_length; cbn [length]; lia).
    cbn [bind r_i r_docids]. rewrite nth_error_app2, Nat.sub_diag by lia. cbn [nth_error].
    intros E. assert (d = d') as -> by congruence. split; [reflexivity|].
    assert (r' = MkPosts (S (length done)) np cur (done ++ d' :: t)) as -> by (symmetry; exact (f_equal (fun q => match q with Ok (_, a, _) => a | _ => r' end) E)).
    replace (done ++ d' :: t) with ((done ++ [d']) ++ t) in * by (rewrite <- app_assoc; reflexivity).
    apply IH; [rewrite app_length; cbn [length]; lia|]. exact H.
Qed.
Lemma log_seen L0 L s f : log_ok L -> (Z.of_nat (log_size L) < 9223372036854775808)%Z -> (forall t, shown L0 L (f t)) ->
  forall l2 l1 n cur ids more, L = l1 ++ l2 -> n = length ids ->
  within_during f (MkPosts n (next_off s (log_size l1) l2) cur ids) (sums cur (concat (chunks s l2)) ++ more).
Proof.
  intros Hok Hsz K. induction l2 as [|[s' ds] r IH]; intros l1 n cur ids more Hlog ->.
  - cbn [chunks filter map concat sums app next_off]. apply during_ended.
  - assert (log_size (l1 ++ [(s', ds)]) = (log_size l1 + chunk_len ds)%nat) as Hls
      by (rewrite log_size_app; cbn [log_size]; lia).
    destruct (Nat.eqb_spec s' s) as [->|Hs].
    + assert (chunks s ((s, ds) :: r) = ds :: chunks s r) as ->
        by (unfold chunks; cbn [filter fst]; rewrite Nat.eqb_refl; reflexivity).
      cbn [concat next_off]. rewrite Nat.eqb_refl, sums_app, <- app_assoc.
      assert (Eok : entry_ok (s, ds)) by (rewrite Hlog in Hok; apply Forall_app in Hok; destruct Hok as [_ Hok]; inv Hok; assumption).
      set (lst := last (sums cur ds) cur).
      assert (H : forall lk, lk = link_bytes (-1) \/ lk = link_bytes (next_off s (log_size l1 + chunk_len ds) r) ->
        within_during f (MkPosts 0 (i64_of_u64 (be64 lk)) lst (sums cur ds)) (sums cur ds ++ sums lst (concat (chunks s r)) ++ more)).
      { intros lk Hlk. apply (during_from _ _ (sums cur ds) 0 _ _ []); [reflexivity|]. cbn [app].
        destruct Hlk as [-> | ->].
        - change (i64_of_u64 (be64 (link_bytes (-1)))) with (-1)%Z. apply during_ended.
        - unfold link_bytes. rewrite <- (app_nil_r (put_be64 _)), be64_put by apply u64_of_i64_range. rewrite i64_u64.
          + rewrite <- Hls. apply IH; [|reflexivity]. rewrite <- app_assoc. exact Hlog.
          + destruct (next_off_range s r (log_size l1 + chunk_len ds)) as [->|R]; [lia|].
            rewrite Hlog, log_size_app in Hsz. cbn [log_size] in Hsz. lia. }
      assert (Sk : forall t, chunk_at (log_size l1) ds (fun lk => lk = link_bytes (-1) \/ lk = link_bytes (next_off s (log_size l1 + chunk_len ds) r)) (f t))
        by (intros t; eapply shown_chunk; [apply K|exact Hlog]).
      pose proof Eok as (Hne & _). cbn [snd] in Hne.
      destruct ds as [|d0 ds0]; [congruence|]. cbn [sums app] in H |- *. cbn [within_during] in H |- *.
      intros t d r' t' E. unfold posts_next_during at 1 in E. cbn [r_i r_docids r_nextpos] in E. rewrite Nat.eqb_refl in E.
      destruct (Z.eqb_spec (Z.of_nat (log_size l1)) (-1)) as [Q|Q]; [lia|]. clear Q.
      destruct (read_next_during f t _) as [[p' t2]| | |] eqn:En; cbn [bind] in E; try discriminate.
      destruct (next_seen f (log_size l1) s (d0 :: ds0) _ (MkPosts (length ids) (Z.of_nat (log_size l1)) cur ids) t p' t2 Sk Eok eq_refl En) as (lk & Hlk & ->). cbn [r_current] in E. fold lst in E.
      apply (H lk Hlk t2 d r' t'). rewrite <- E. unfold posts_next_during. cbn [r_i r_docids r_nextpos r_current sums length Nat.eqb bind]. reflexivity.
    + assert (chunks s ((s', ds) :: r) = chunks s r) as ->
        by (unfold chunks; cbn [filter fst]; destruct (Nat.eqb_spec s' s); [congruence|reflexivity]).
      cbn [next_off]. destruct (Nat.eqb_spec s' s); [congruence|].
      rewrite <- Hls. apply IH; [|reflexivity]. rewrite <- app_assoc. exact Hlog.
Qed.

(** * What a shard is at when it serves a post *)
Section Busy.
  Context {S : Type}.
  Variable absorb : S -> post -> S.
  Variables (u : unicode) (k m n : nat).
  Hypothesis Hk : (0 < k)%nat.
  Hypothesis Hm : (0 < m)%nat.
  Hypothesis Hn : (0 < n)%nat.
  Hypothesis Hb : N.of_nat n < 4294967296.
  Variables (docs : list req) (wss : list (list bytes)) (last0 : N) (ws0 : list blotter) (shards0 : list S).
  Hypothesis Hw : Forall (wgood u k m) ws0.
  Hypothesis Hs : length shards0 = n.
  Hypothesis Hl : last0 + nlen docs < 4294967295.
  Hypothesis Hd : Forall2 (fun d ws => doc_words (word_char u) (snd d) ws) docs wss.
  Lemma run_busy st j v s0 q : steps (shatter_work u n (Z.of_nat (k * m))) absorb (init [docs] last0 ws0 shards0) st ->
    nth_error (s_servers st) j = Some v -> nth_error shards0 j = Some s0 -> v_st v = VBusy q ->
    exists pre rest, posts_for (word_hash u) k m n j last0 wss = pre ++ q ++ rest /\ v_shard v = fold_left absorb pre s0.
  Proof.
    intros H Ev Es Eb. destruct (run_inv absorb u k m n Hk Hm Hn Hb docs last0 ws0 shards0 Hw Hs Hl st H) as (c & s & I).
    pose proof (Inv_servers _ _ _ _ _ _ _ _ _ _ _ I) as L.
    assert (Lj : (j < n)%nat) by (rewrite <- L; eapply nth_len, Ev).
    assert (X : exists pre rest, flat j (outs (outf u k m n) docs last0) = pre ++ q ++ rest /\ v_shard v = fold_left absorb pre s0).
    2:{ destruct X as (pre & rest & E & X). exists pre, rest. split; [|exact X]. rewrite <- E. unfold outs.
        rewrite (flat_posts absorb u k m n Hk Hm Hn Hb last0 j Lj docs wss 0 Hd). f_equal. lia. }
    pose proof I as [Ics Icl Imono Iws Iho Imx Imn Icd Isv]. destruct Iws as [Lw Hw']. destruct Isv as (Lv & A & B).
    destruct (sender_exists (s_workers st)) as [G|(k0 & w & did & gs & E)].
    - pose proof (A G j v s0 Ev Es) as X. cbn [srv] in X. destruct X as ([X|[X _]] & _); rewrite Eb in X; discriminate X.
    - destruct (Hw' _ _ E) as (_ & _ & R & Lg). destruct (outs_some (outf u k m n) n docs last0 shards0 (outf_len u k m n) Hs Hl c) as (o & Eo & Lo); [lia|].
      destruct (nth_ex gs j) as [g Eg]; [rewrite Lg, <- Lv; eapply nth_len, Ev|].
      pose proof (B _ _ _ _ E j v s0 g o Ev Es Eg Eo) as X.
      destruct (nth_error_split _ _ Eo) as (l1 & l2 & El & Ll).
      assert (F1 : firstn c (outs (outf u k m n) docs last0) = l1) by (rewrite El, <- Ll; apply firstn_app_exact; reflexivity).
      assert (FT : flat j (outs (outf u k m n) docs last0) = flat j l1 ++ nth j o [] ++ flat j l2).
      { rewrite El, flat_app. f_equal. }
      unfold after in X. rewrite F1 in X. destruct g; cbn [srv] in X.
      + destruct X as (X & _). congruence.
      + destruct X as [(dn & rest & E1 & E2 & X)|(X & _)]; [|congruence]. assert (rest = q) as -> by congruence.
        exists (flat j l1 ++ dn), (flat j l2). rewrite fold_left_app. split; [|exact X]. rewrite FT, E1, <- !app_assoc. reflexivity.
      + destruct X as (X & _). congruence.
  Qed.
End Busy.

(** * The writes of a session to a posting file *)
Lemma wops_seen_app a b : forall f g, wops_seen a f g -> wops_seen (a ++ b) f g.
Proof. intros f g H. induction H; cbn [app]; [apply seen_here|apply seen_end|apply seen_later; assumption]. Qed.
Lemma wops_seen_after a b : forall f g, wops_seen b (apply_wops f a) g -> wops_seen (a ++ b) f g.
Proof.
  induction a as [|[off d] a IH]; intros f g H; cbn [app]; [exact H|]. apply seen_later, IH. exact H.
Qed.
Lemma ends_keeps tl a : forall base b f, ends tl base (a ++ b) f -> keeps base a f.
Proof.
  induction a as [|[s ds] r IH]; intros base b f K; cbn [app ends keeps] in *; [exact Logic.I|]. destruct K as (lk & f' & E & Lk & H1 & _ & K).
  exists lk, f'. split; [exact E|]. split; [exact Lk|]. split; [|eapply IH, K]. intros Hin. rewrite map_app in H1.
  rewrite (H1 (in_or_app _ _ _ (or_introl Hin))), KeepP.next_off_app by exact Hin. reflexivity.
Qed.
Lemma shown_keeps L0 L f : shown L0 L f -> keeps 0 L0 f.
Proof. intros (e & l2 & tl & _ & E & _). eapply ends_keeps, E. Qed.

Definition close_ws (x : shard) : list wop := snd (flush_ind_w (length (x_ind x)) 0 x).
Definition session_ws (x : shard) (ps : list post) : list wop := serve_ws x ps ++ close_ws (serve_batch x ps).
Lemma line y log hist ps : shard_inv y log (content_of hist) -> bounded (hist ++ ps) ->
  exists L, shard_inv (flush_ind (serve_batch y ps)) L (content_of (hist ++ ps)) /\ flushed (flush_ind (serve_batch y ps)) /\ flushes log (session_ws y ps) L.
Proof.
  intros I B. destruct (serve_batch_fl ps y log hist I B) as (l1 & I1 & F1). destruct (flush_ind_spec_fl _ _ _ I1) as (l2 & I2 & Fl & F2).
  exists l2. split; [exact I2|]. split; [exact Fl|]. eapply flushes_app; eauto.
Qed.

Section A.
  Variables (u : unicode) (c : config) (k m n : nat).
  Hypothesis F : cfg_full c k m n.
  Let O : cfg_ok c k m n := cu_ok _ _ _ _ F.
  Let Hn : N.of_nat n < 65536 := cu_n _ _ _ _ F.
  Let Hfl : (1 <= cf_flush c)%Z := cu_flush _ _ _ _ F.
  Notation posts j wss := (posts_for (word_hash u) k m n j 0 wss).
  Notation disk_inv := (SessionP.disk_inv u c k m n).

  Lemma posting_writes docs0 wss0 fn0 fs0 dk docs wss j y log : disk_inv docs0 wss0 fn0 fs0 dk -> docs_fit (docs0 ++ docs) ->
    words_of (word_char u) docs0 wss0 -> words_of (word_char u) docs wss -> (j < n)%nat ->
    nth_error (k_shards dk) j = Some (iix_bytes (x_ind y), x_file y) -> shard_inv y log (content_of (posts j wss0)) -> flushed y -> (Z.of_nat (log_size log) < 9223372036854775808)%Z ->
    let ps := posts_for (word_hash u) k m n j (nlen docs0) wss in
    (forall f, posting_at u dk docs j f -> wops_seen (session_ws y ps) (x_file y) f) /\
    (forall dk2, session u (open_indexer dk) docs dk2 -> nth_error (k_shards dk2) j = Some (iix_bytes (x_ind (flush_ind (serve_batch y ps))), x_file (flush_ind (serve_batch y ps)))).
  Proof.
    intros D Fit W0 W1 Lj Ek J Fl Sz ps. pose proof (df_len _ Fit) as FL. change (2 ^ 32) with 4294967296 in *. unfold nlen in FL. rewrite app_length in FL.
    pose proof (di_shards _ _ _ _ _ _ _ _ _ _ D) as Ls.
    destruct (open_start u c k m n O Hn Hfl _ _ _ _ _ D ltac:(unfold nlen; lia)) as (x & ws & Ex & I).
    destruct (session_inv u c k m n O Hn _ x ws _ _ _ docs wss Ex I Fit W0 W1) as (_ & _ & _ & Last).
    destruct (cfg_nat _ _ _ _ O) as (En & Es & Hk & Hm & Hn0).
    destruct (start_workers_good u c k m n ws O (xi_ws _ _ _ _ _ _ _ _ _ _ I)) as (Gw & Lw).
    assert (Lr : length (requests docs) = length docs) by apply map_length.
    assert (Hl' : nlen docs0 + nlen (requests docs) < 4294967295) by (unfold nlen; lia).
    assert (Es0 : nth_error (x_shards x) j = Some y).
    { destruct (nth_ex (x_shards x) j) as [s0 Es0]; [rewrite (xi_shards _ _ _ _ _ _ _ _ _ _ I); exact Lj|]. rewrite Es0. f_equal.
      destruct (open_indexer_parts c k m n F dk x ws Ex (di_cfg _ _ _ _ _ _ _ _ _ _ D)) as (_ & _ & X4). destruct (for_shards_nth _ _ _ _ X4) as [_ Nx].
      destruct (Nx j s0 Es0) as (i4 & p4 & E4 & E5). rewrite Ek in E4. injection E4 as <- <-.
      rewrite (shard_append_spec y log _ J Fl Sz) in E5. congruence. }
    assert (Ready : forall x' ws' st, open_indexer dk = Ok (x', ws') ->
      session_steps u (x_cfg x') (session_start (adder_last (fst (x_dmds x'))) ws' (x_shards x') (requests docs)) st ->
      steps (shatter_work u n (Z.of_nat (k * m))) serve_post (init [requests docs] (nlen docs0) ws (x_shards x)) st).
    { intros x' ws' st E Est. rewrite Ex in E. assert (x' = x) as -> by congruence. assert (ws' = ws) as -> by congruence.
      rewrite (xi_cfg _ _ _ _ _ _ _ _ _ _ I), Last in Est. unfold session_steps, session_start in Est. rewrite En, Es in Est. exact Est. }
    assert (Pre : forall st v, steps (shatter_work u n (Z.of_nat (k * m))) serve_post (init [requests docs] (nlen docs0) ws (x_shards x)) st ->
      nth_error (s_servers st) j = Some v -> exists done rest, ps = done ++ rest /\ v_shard v = serve_batch y done).
    { intros st v Est Ev. destruct (run_prefix serve_post u k m n Hk Hm Hn0 ltac:(lia) (requests docs) wss (nlen docs0) ws (x_shards x) Gw (xi_shards _ _ _ _ _ _ _ _ _ _ I) Hl'
        (words_of_requests _ _ _ W1) st Est) as (_ & Pr). apply (Pr j v y Ev Es0). }
    assert (End : forall st v i, steps (shatter_work u n (Z.of_nat (k * m))) serve_post (init [requests docs] (nlen docs0) ws (x_shards x)) st ->
      s_main st = MChan i -> nth_error (s_servers st) j = Some v -> v_shard v = serve_batch y ps).
    { intros st v i Est Em Ev. destruct (run_complete serve_post u k m n Hk Hm Hn0 ltac:(lia) (requests docs) wss (nlen docs0) ws (x_shards x) Gw (xi_shards _ _ _ _ _ _ _ _ _ _ I) Hl'
        (words_of_requests _ _ _ W1) st i Est Em) as (_ & Y). apply (Y j v y Ev Es0). }
    split.
    - intros f P. unfold session_ws. destruct P as [x' ws' st v Ex' Est Ev|x' ws' st v p q f Ex' Est Ev Eb Sn|x' ws' st v f Ex' Est Em Ev Sn].
      + pose proof (Ready _ _ _ Ex' Est) as Est'. destruct (Pre _ _ Est' Ev) as (done & rest & Ep & Ev'). rewrite Ev', Ep, serve_ws_app, serve_ws_file, <- app_assoc.
        apply wops_seen_after, seen_here.
      + pose proof (Ready _ _ _ Ex' Est) as Est'.
        destruct (run_busy serve_post u k m n Hk Hm Hn0 ltac:(lia) (requests docs) wss (nlen docs0) ws (x_shards x) Gw (xi_shards _ _ _ _ _ _ _ _ _ _ I) Hl'
          (words_of_requests _ _ _ W1) st j v y (p :: q) Est' Ev Es0 Eb) as (pre & rest & Ep & Ev'). fold ps in Ep. fold (serve_batch y pre) in Ev'.
        rewrite Ep, serve_ws_app, <- app_assoc. apply wops_seen_after. rewrite <- serve_ws_file, <- Ev'. cbn [app serve_ws]. rewrite <- app_assoc. apply wops_seen_app, Sn.
      + pose proof (Ready _ _ _ Ex' Est) as Est'. rewrite (End _ _ _ Est' Em Ev) in Sn. apply wops_seen_after. rewrite <- serve_ws_file. exact Sn.
    - intros dk2 S. inversion S as [x' ws' fn dm ids st i Ex' Ed Est Em Edk]. cbn [k_shards].
      pose proof (Ready _ _ _ Ex' Est) as Est'.
      destruct (run_prefix serve_post u k m n Hk Hm Hn0 ltac:(lia) (requests docs) wss (nlen docs0) ws (x_shards x) Gw (xi_shards _ _ _ _ _ _ _ _ _ _ I) Hl'
        (words_of_requests _ _ _ W1) st Est') as (Lsv & _).
      destruct (nth_ex (s_servers st) j) as [v Ev]; [rewrite Lsv; exact Lj|]. rewrite !nth_error_map, Ev. cbn [option_map]. rewrite (End _ _ _ Est' Em Ev). reflexivity.
  Qed.

  (** One log for all moments of the sessions. *)
  Lemma timeline docs0 wss0 fn0 fs0 dk j y0 log0 : disk_inv docs0 wss0 fn0 fs0 dk -> words_of (word_char u) docs0 wss0 -> (j < n)%nat ->
    nth_error (k_shards dk) j = Some (iix_bytes (x_ind y0), x_file y0) -> shard_inv y0 log0 (content_of (posts j wss0)) -> flushed y0 ->
    forall news wss, docs_fit (docs0 ++ all_docs news) -> words_of (word_char u) (all_docs news) wss ->
    exists L y, (exists e, L = log0 ++ e) /\ shard_inv y L (content_of (posts j (wss0 ++ wss))) /\ flushed y /\
      (forall dk1, since u dk news dk1 -> nth_error (k_shards dk1) j = Some (iix_bytes (x_ind y), x_file y)) /\
      (forall f, during u dk news (fun dk1 docs => posting_at u dk1 docs j f) -> shown log0 L f).
  Proof.
    intros D W0 Lj Ek J Fl. induction news as [|docs news IH]; intros wss Fit Ww.
    - inversion Ww; subst. rewrite app_nil_r. exists log0, y0. split; [exists []; rewrite app_nil_r; reflexivity|]. split; [exact J|]. split; [exact Fl|]. split.
      + intros dk1 S. inversion S; subst. exact Ek.
      + intros f (later & docs & earlier & dk1 & E & _). destruct later; discriminate E.
    - rewrite all_docs_cons in Fit, Ww. rewrite app_assoc in Fit. apply Forall2_app_inv_l in Ww. destruct Ww as (w1 & w2 & W1 & W2 & ->).
      destruct (IH w1 (fit_app _ _ Fit) W1) as (L1 & y1 & [e1 E1] & J1 & Fl1 & S1 & D1). clear IH.
      pose proof (df_len _ Fit) as FL. change (2 ^ 32) with 4294967296 in *. pose proof (words_of_len _ _ _ W0) as Lw0. pose proof (words_of_len _ _ _ W1) as Lw1. pose proof (words_of_len _ _ _ W2) as Lw2.
      assert (Ww1 : words_of (word_char u) (docs0 ++ all_docs news) (wss0 ++ w1)) by (apply Forall2_app; assumption).
      assert (Small : small (word_hash u) k m ((wss0 ++ w1) ++ w2)).
      { apply Forall_app. split; [eapply words_of_small, Ww1|eapply words_of_small, W2]. }
      assert (B : bounded (posts j ((wss0 ++ w1) ++ w2))) by (apply posts_bounded; auto; unfold nlen in *; rewrite !app_length in *; lia).
      assert (Ep : posts j ((wss0 ++ w1) ++ w2) = posts j (wss0 ++ w1) ++ posts_for (word_hash u) k m n j (nlen (docs0 ++ all_docs news)) w2).
      { rewrite posts_for_app. replace (0 + nlen (wss0 ++ w1)) with (nlen (docs0 ++ all_docs news)) by (unfold nlen; rewrite !app_length; lia). reflexivity. }
      rewrite (app_assoc wss0 w1 w2). rewrite Ep in B |- *. set (ps := posts_for (word_hash u) k m n j (nlen (docs0 ++ all_docs news)) w2) in *.
      destruct (line y1 L1 _ ps J1 B) as (L & J2 & Fl2 & Fs). destruct (flushes_more _ _ _ Fs) as [e2 E2].
      assert (Sz1 : (Z.of_nat (log_size L1) < 9223372036854775808)%Z) by (apply (shard_file_size _ _ _ J1); intros s; apply (bounded_app_l _ ps); exact B).
      assert (Pw : forall dk1, since u dk news dk1 ->
        (forall f, posting_at u dk1 docs j f -> wops_seen (session_ws y1 ps) (x_file y1) f) /\
        (forall dk2, session u (open_indexer dk1) docs dk2 -> nth_error (k_shards dk2) j = Some (iix_bytes (x_ind (flush_ind (serve_batch y1 ps))), x_file (flush_ind (serve_batch y1 ps))))).
      { intros dk1 Si. destruct (since_inv u c k m n F _ _ _ _ _ _ _ D Si W0 w1 (fit_app _ _ Fit) W1) as (fn1 & fs1 & D2 & _).
        exact (posting_writes _ _ _ _ dk1 docs w2 j y1 L1 D2 Fit Ww1 W2 Lj (S1 dk1 Si) J1 Fl1 Sz1). }
      exists L, (flush_ind (serve_batch y1 ps)). split; [exists (e1 ++ e2); rewrite E2, E1, <- app_assoc; reflexivity|]. split; [exact J2|]. split; [exact Fl2|]. split.
      + intros dk2 S. inversion S as [|news' dk1 docs' dk2' Si Se]; subst news' docs' dk2'. apply (Pw dk1 Si), Se.
      + intros f (later & docs' & earlier & dk1 & E & Si & P). destruct later as [|x later]; cbn [app] in E.
        * injection E as <- <-. pose proof (proj1 (Pw dk1 Si) f P) as Sn. destruct J1 as (_ & Ef & _). rewrite Ef in Sn.
          pose proof (flushes_shown _ _ _ Fs f Sn) as Sh. rewrite E1 in Sh. eapply shown_earlier, Sh.
        * injection E as _ E. rewrite E2. apply shown_later, D1. exists later, docs', earlier, dk1. auto.
  Qed.

  Lemma open_names sorted dk x ws ix : k_cfg dk = Some c -> open_indexer dk = Ok (x, ws) -> open_index sorted dk = Ok ix -> x_fnames x = ix_fnames ix.
  Proof.
    intros Ec Ex E0. destruct (open_index_parts c k m n F sorted dk ix E0 Ec) as [_ P2].
    unfold open_indexer, Session.read_config in Ex. rewrite Ec, (check_ok c k m n O Hn) in Ex. cbn [bind] in Ex.
    destruct (_ <? 0)%Z; [discriminate|]. destruct (new_adder _ _); cbn [bind] in Ex; try discriminate. rewrite P2 in Ex. cbn [bind] in Ex.
    destruct (token_from_config _); cbn [bind] in Ex; try discriminate. destruct (for_shards _ _ _); cbn [bind] in Ex; try discriminate.
    destruct (start_workers _); cbn [bind] in Ex; try discriminate. injection Ex as <- _. reflexivity.
  Qed.
  Lemma lookup_beyond all g d v : begins (Some g) all -> dmd_lookup g d = Ok v -> d < nlen all.
  Proof.
    intros (b & r & Eb & Er) E. assert (b = g) as -> by (destruct Eb as [Eb|[Eb _]]; [congruence|discriminate]).
    assert (length g <= 12 * length all)%nat as Lg by (rewrite <- render_dmd_length, Er, app_length; lia).
    unfold dmd_lookup, read_full, pread, zlen in E. destruct (N.lt_ge_cases d (nlen all)) as [L|L]; [exact L|]. exfalso. unfold nlen in L.
    assert ((Z.of_N d * 12 <? 0)%Z = false) as X by lia. rewrite X in E. change (12 <=? 0)%Z with false in E. cbn iota in E.
    assert ((Z.of_N d * 12 + 12 <=? Z.of_nat (length g))%Z = false) as Y by lia. rewrite Y in E.
    destruct (_ <? _)%Z in E; cbn [bind] in E; discriminate.
  Qed.
  (** A place that a read of dmd gives at some moment is right. *)
  Lemma place_during sorted docs0 wss0 fn0 fs0 dk ix news g ss0 d pl : sorts sorted -> disk_inv docs0 wss0 fn0 fs0 dk -> words_of (word_char u) docs0 wss0 ->
    docs_fit (docs0 ++ all_docs news) -> open_index sorted dk = Ok ix ->
    during u dk news (fun dk1 docs => exists fs', append_stopped u dk1 docs fs' /\ w_dmd fs' = Some g) ->
    0 < d -> docid2doc (MkIndex (ix_cfg ix) g (ix_fnames ix) ss0) d = Ok pl -> pl = place_of (docs0 ++ all_docs news) d.
  Proof.
    intros Hs D W0 Fit Eo (later & docs & earlier & dk1 & En & Si & fs' & Ap & Eg) Hd E.
    assert (Ea : docs0 ++ all_docs news = ((docs0 ++ all_docs earlier) ++ docs) ++ all_docs later).
    { rewrite En, all_docs_app, all_docs_cons, <- !app_assoc. reflexivity. }
    rewrite Ea in *. pose proof (fit_app _ _ Fit) as Fit2. pose proof (fit_app _ _ Fit2) as Fit1.
    destruct (words_total u (all_docs earlier)) as [w1 W1].
    destruct (since_inv u c k m n F _ _ _ _ _ _ _ D Si W0 w1 Fit1 W1) as (fn1 & fs1 & D1 & X01 & _).
    assert (Ww1 : words_of (word_char u) (docs0 ++ all_docs earlier) (wss0 ++ w1)) by (apply Forall2_app; assumption).
    destruct Ap as [x ws fs'' Ex St]. pose proof (df_len _ Fit1) as L0. change (2 ^ 32) with 4294967296 in L0.
    destruct (open_start u c k m n O Hn Hfl _ _ _ _ _ D1 ltac:(lia)) as (x' & ws' & Ex' & I).
    rewrite Ex in Ex'. assert (x' = x) as -> by congruence. assert (ws' = ws) as -> by congruence. clear Ex'.
    destruct (stop_records u c k m n F _ _ _ dk1 x ws docs _ I Fit2 St) as (fn2 & fs2 & Wf2 & X2 & R2 & Bg & _). rewrite Eg in Bg.
    destruct (open_index_ok u c k m n O Hn sorted Hs _ _ fn1 fs1 dk1 D1 Ww1 Fit1) as (ix1 & E1 & _ & _ & _ & _ & Sk1 & _).
    rewrite <- (open_names sorted dk1 x ws ix1 (di_cfg _ _ _ _ _ _ _ _ _ _ D1) Ex E1) in Sk1.
    destruct (open_index_ok u c k m n O Hn sorted Hs _ wss0 fn0 fs0 dk D W0 (fit_app _ _ Fit1)) as (ix' & E' & _ & _ & _ & Wf & Sk & _). assert (ix' = ix) as -> by congruence.
    assert (X0 : extends (ix_fnames ix) fn2).
    { eapply extends_trans; [|exact X2]. destruct X01 as [t Xt]. exists t. congruence. }
    assert (Nq : forall q, node_of docs0 q <-> exists i, is_path (ix_fnames ix) i q).
    { intros q. rewrite (nodes_of u c k m n _ _ _ _ _ D q).
      split; intros [i P]; exists i; (eapply extends_path; [|exact P]); exists []; rewrite app_nil_r; congruence. }
    assert (Ld : d <= nlen ((docs0 ++ all_docs earlier) ++ docs)).
    { unfold docid2doc in E. cbn [ix_dmd] in E. destruct (dmd_lookup g d) as [v| | |] eqn:El; cbn [bind] in E; try discriminate.
      pose proof (lookup_beyond _ _ _ _ Bg El) as L. pose proof (recs_len _ _ _ R2) as Lr. unfold nlen in *. cbn [length] in L. lia. }
    rewrite place_of_app by lia.
    refine (place_right fn2 fs2 _ g (ix_fnames ix) _ _ d pl Wf2 R2 Fit2 Bg _ Hd ltac:(lia) E).
    intros f p Rf q Eq. destruct (place_seen (ix_fnames ix) fn2 docs0 f p Wf Wf2 X0 Nq Rf) as [A B].
    destruct (known_dec docs0 p) as [K|K]; [rewrite (A K) in Eq|rewrite (B K) in Eq]; congruence.
  Qed.

  Lemma get_loop_seen grow ix now place lim j : forall ids ids0 more fuel t ps ds ds', ids = ids0 ++ more ->
    within_during (posting ix now j) ps ids -> first_during (posting ix now j) ps ids0 ->
    (forall t d pl, In d ids -> docid2doc (live ix (now t)) d = Ok pl -> pl = place d) ->
    docs_wf ds -> get_loop_during grow ix now fuel t lim j ps ds = Ok ds' ->
    exists i, (i <= length ids)%nat /\ docs_keys ds' = docs_keys ds ++ map place (firstn i ids) /\
      ((length ids0 <= i)%nat \/ lim = true /\ docs_len ds' = docs_cap ds').
  Proof.
    induction ids as [|d ids IH]; intros ids0 more [|fuel] t ps ds ds' Ei R Fd Pl W E; cbn [get_loop_during within_during] in *; try discriminate.
    - exists 0%nat. cbn [length firstn map]. rewrite app_nil_r. split; [lia|]. symmetry in Ei. apply app_eq_nil in Ei. destruct Ei as [-> _]. cbn [length].
      split; [|left; lia]. destruct (_ && _); [congruence|].
      destruct (posts_next_during _ _ _) as [[[d r'] t']|[]| |] eqn:En; try discriminate; [destruct (R _ _ _ _ En)|congruence].
    - destruct (lim && (docs_len ds =? docs_cap ds)%nat) eqn:El.
      { exists 0%nat. cbn [firstn map]. rewrite app_nil_r. split; [lia|]. split; [congruence|]. right. apply andb_prop in El. destruct El as [El Eq]. apply Nat.eqb_eq in Eq. split; [exact El|].
        assert (ds' = ds) as -> by congruence. exact Eq. }
      destruct (posts_next_during _ _ _) as [[[d' r'] t']|[]| |] eqn:En; try discriminate.
      2:{ destruct ids0 as [|x ids0]; [|cbn [first_during] in Fd; destruct (Fd t) as (r2 & t2 & E2 & _); rewrite E2 in En; discriminate En].
          exists 0%nat. cbn [firstn map]. rewrite app_nil_r. split; [lia|]. split; [congruence|left; cbn [length]; lia]. }
      destruct (R _ _ _ _ En) as [-> R']. destruct (docid2doc (live ix (now t')) d) as [[[p s] e]| | |] eqn:Ed; cbn [bind] in E; try discriminate.
      destruct (put_doc grow lim ds p s e) as [ds1| | |] eqn:Ep; cbn [bind] in E; try discriminate.
      destruct (put_doc_keys _ _ _ _ _ _ _ W Ep) as (W1 & K1 & _). rewrite (Pl t' d _ (or_introl eq_refl) Ed) in K1.
      assert (Q : exists ids1, (length ids0 <= S (length ids1))%nat /\ (exists more', ids = ids1 ++ more') /\ first_during (posting ix now j) r' ids1).
      { destruct ids0 as [|x ids0].
        - exists []. split; [cbn; lia|]. split; [exists ids; reflexivity|exact Logic.I].
        - cbn [app] in Ei. injection Ei as <- Ei. cbn [first_during] in Fd. destruct (Fd t) as (r2 & t2 & E2 & F2).
          exists ids0. split; [cbn [length]; lia|]. split; [eauto|]. rewrite E2 in En. congruence. }
      destruct Q as (ids1 & Q1 & (more' & Q2) & Q3).
      destruct (IH ids1 more' fuel (S t') r' ds1 ds' Q2 R' Q3 (fun t x pl H => Pl t x pl (or_intror H)) W1 E) as (i & Li & K & Lw).
      exists (S i). cbn [length firstn map]. split; [lia|]. split; [rewrite K, K1, <- app_assoc; reflexivity|]. destruct Lw as [Lw|Lw]; [left; lia|auto].
  Qed.

  Lemma open_within sorted x log hist pos si y L hist1 : shard_inv x log (content_of hist) -> (Z.of_nat (log_size log) < 9223372036854775808)%Z ->
    shard_open sorted (iix_bytes (x_ind x)) pos = Ok si -> shard_inv y L (content_of hist1) -> flushed y -> (Z.of_nat (log_size L) < 9223372036854775808)%Z ->
    (exists e, L = log ++ e) -> forall f, (forall t, shown log L (f t)) ->
    forall s, (s < num_slots)%nat -> within_during f (new_posts (nth s (si_heads si) (-1)%Z)) (content_of hist1 s).
  Proof.
    intros I Hsz Eo I' Hf SzL [e Ee] f P s Hs. destruct (open_heads sorted _ _ _ Eo) as (t & T & ->). unfold table_of in T. cbn [fst] in T.
    rewrite (closed_table x log hist I Hsz) in T. assert (t = map (fun p => (p_head p, p_total p)) (x_ind x)) as -> by congruence. clear T Eo.
    destruct I as (I1 & I2 & I3 & I4 & I5).
    destruct (nth_error (x_ind x) s) as [p|] eqn:E; [|apply nth_error_None in E; lia].
    rewrite map_map. cbn [fst]. rewrite (nth_map_error _ _ _ _ _ E). destruct (I5 s p E) as (_ & H2 & _). rewrite H2. clear I1 I2 I3 I4 I5 E H2 p.
    destruct I' as (I1 & I2 & I3 & I4 & I5).
    destruct (nth_error (x_ind y) s) as [p|] eqn:E; [|apply nth_error_None in E; lia].
    destruct (I5 s p E) as (_ & _ & _ & _ & _ & pend & H6 & _ & _ & H9).
    assert (p_posts p = []) as Hp by (apply nth_error_In in E; unfold flushed in Hf; rewrite Forall_forall in Hf; auto).
    assert (pend = []) as ->.
    { rewrite H6 in Hp. pose proof (payload_length_ge pend) as Lp. rewrite Hp in Lp. destruct pend; [reflexivity|cbn [length] in Lp; lia]. }
    rewrite app_nil_r in H9. rewrite <- H9. unfold new_posts.
    destruct (in_dec Nat.eq_dec s (map fst log)) as [Hin|Hout].
    - pose proof (log_seen log L s f I3 SzL P L [] 0%nat 0 [] [] eq_refl eq_refl) as X. rewrite app_nil_r in X.
      cbn [log_size] in X. rewrite Ee in X at 1. rewrite (KeepP.next_off_app s log e 0 Hin) in X. exact X.
    - assert (next_off s 0 log = (-1)%Z) as -> by (apply PosterP.next_off_none, Hout). apply (during_ended f []).
  Qed.

  Theorem get_seen sorted docs0 wss0 fn0 fs0 dk ix now news wss1 grow blot fuel ds0 ds : sorts sorted ->
    disk_inv docs0 wss0 fn0 fs0 dk -> words_of (word_char u) docs0 wss0 -> open_index sorted dk = Ok ix ->
    docs_fit (docs0 ++ all_docs news) -> words_of (word_char u) (all_docs news) wss1 -> (forall t, seen_during u dk news (now t)) ->
    docs_wf ds0 -> query_get_during grow ix now fuel blot ds0 = Ok ds ->
    let ids0 := carriers (word_hash u) k m n 0 wss0 (blot mod (N.of_nat n * 65536)) in
    let ids := carriers (word_hash u) k m n 0 (wss0 ++ wss1) (blot mod (N.of_nat n * 65536)) in
    exists i, (i <= length ids)%nat /\ docs_keys ds = docs_keys ds0 ++ map (place_of (docs0 ++ all_docs news)) (firstn i ids) /\
      ((length ids0 <= i)%nat \/ is_nil ds0 = false /\ docs_len ds = docs_cap ds).
  Proof.
    intros Hs D W0 Eo Fit W1 V Wd Eq ids0 ids. pose proof (fit_app _ _ Fit) as Fit0.
    destruct (open_index_ok u c k m n O Hn sorted Hs _ wss0 fn0 fs0 dk D W0 Fit0) as (ix' & E & I & _). assert (ix' = ix) as -> by congruence. clear E.
    pose proof (co_n _ _ _ _ O) as Pn. pose proof (shard_small c k m n F blot) as Lsh. pose proof (slot_small n blot) as Lsl.
    pose proof (blot_held u c k m n F wss0 blot) as Eh0. pose proof (blot_held u c k m n F (wss0 ++ wss1) blot) as Eh.
    destruct (nth_shard (fun x => x) ix _ n _ I _ Lsh) as [si Es].
    destruct (open_shard c k m n sorted F dk ix _ si Eo (di_cfg _ _ _ _ _ _ _ _ _ _ D) Es) as (iix & pos & N0 & O0).
    assert (Ex : query_get_during grow ix now fuel blot ds0 =
      get_loop_during grow ix now fuel 0 (negb (is_nil ds0)) (QueryP.shard_of n blot) (new_posts (nth (QueryP.slot_of n blot) (si_heads si) (-1)%Z)) ds0).
    { unfold query_get_during, get_address. assert (u32 (nlen (ix_shards ix)) = N.of_nat n) as ->.
      { unfold u32, nlen. rewrite (io_len _ _ _ _ I). apply N.mod_small. lia. }
      destruct (N.eqb_spec (N.of_nat n) 0); [lia|]. cbn [bind]. fold (QueryP.shard_of n blot). rewrite Es. reflexivity. }
    rewrite Ex in Eq. clear Ex.
    set (j := QueryP.shard_of n blot) in *. set (s := QueryP.slot_of n blot) in *.
    destruct (di_closed _ _ _ _ _ _ _ _ _ _ D j _ N0) as (y & log & J & Fl & Sz & Ef). rewrite Ef in N0.
    assert (iix = iix_bytes (x_ind y)) as -> by congruence.
    destruct (timeline _ _ _ _ dk j y log D W0 Lsh N0 J Fl news wss1 Fit W1) as (L & y1 & [e Ee] & J1 & Fl1 & _ & Sh).
    assert (Ww : words_of (word_char u) (docs0 ++ all_docs news) (wss0 ++ wss1)) by (apply Forall2_app; assumption).
    pose proof (df_len _ Fit) as FL. change (2 ^ 32) with 4294967296 in FL. pose proof (words_of_len _ _ _ Ww) as Lw.
    assert (B : bounded (posts j (wss0 ++ wss1))) by (apply posts_bounded; auto; [unfold nlen in *; lia|eapply words_of_small, Ww]).
    assert (SzL : (Z.of_nat (log_size L) < 9223372036854775808)%Z) by (apply (shard_file_size _ _ _ J1); intros s'; apply B).
    assert (P : forall t, shown log L (posting ix now j t)).
    { intros t. destruct (V t) as (_ & Wl & Wk). destruct (nth_ex (w_shards (now t)) j) as [fl Ej]; [rewrite Wl, (di_shards _ _ _ _ _ _ _ _ _ _ D); exact Lsh|].
      destruct (Wk _ _ Ej) as (p & Ep & K). unfold posting. change (ix_shards (live ix (now t))) with (live_shards (ix_shards ix) (w_shards (now t))).
      rewrite (live_nth _ _ _ _ _ Es Ej), Ep. apply Sh, K. }
    assert (Fd : first_during (posting ix now j) (new_posts (nth s (si_heads si) (-1)%Z)) ids0).
    { unfold ids0. rewrite <- Eh0. unfold History.held. rewrite <- (content_held u c k m n F docs0 wss0 _ _ Fit0 W0 Lsh Lsl).
      eapply open_during; eauto. intros t. eapply shown_keeps, P. }
    assert (Wt : within_during (posting ix now j) (new_posts (nth s (si_heads si) (-1)%Z)) ids).
    { unfold ids. rewrite <- Eh. unfold History.held. rewrite <- (content_held u c k m n F _ _ _ _ Fit Ww Lsh Lsl).
      exact (open_within sorted y log _ pos si y1 L _ J Sz O0 J1 Fl1 SzL (ex_intro _ e Ee) _ P s Lsl). }
    destruct (get_loop_seen grow ix now (place_of (docs0 ++ all_docs news)) (negb (is_nil ds0)) j ids ids0 (carriers (word_hash u) k m n (0 + nlen wss0) wss1 (blot mod (N.of_nat n * 65536))) fuel 0 (new_posts (nth s (si_heads si) (-1)%Z)) ds0 ds) as (i & Li & K & Lo); auto.
    - unfold ids, ids0. apply carriers_app.
    - intros t d pl Hd Epl. apply carriers_in in Hd. destruct (V t) as ((g & Eg & Dg) & _). unfold live in Epl. rewrite Eg in Epl.
      refine (place_during sorted _ _ _ _ dk ix news g _ d pl Hs D W0 Fit Eo Dg _ Epl). lia.
    - exists i. split; [exact Li|]. split; [exact K|]. destruct Lo as [Lo|[L1 L2]]; [auto|right]. destruct (is_nil ds0); [discriminate L1|auto].
  Qed.

  (** Before a session starts. *)
  Lemma seen_start ss dk later docs earlier dk1 : history u c ss dk -> since u dk earlier dk1 -> docs_fit (all_docs ss ++ all_docs earlier) ->
    seen_during u dk (later ++ docs :: earlier) (files_of dk1).
  Proof.
    intros Hi Si Fit. pose proof (since_history u c _ _ _ _ Hi Si) as Hi1.
    assert (Fit1 : docs_fit (all_docs (earlier ++ ss))) by (rewrite all_docs_app; exact Fit).
    destruct (words_total u (all_docs ss)) as [w0 W0]. destruct (words_total u (all_docs (earlier ++ ss))) as [w1 W1].
    destruct (history_inv u c k m n O Hn Hfl _ dk Hi (fit_app _ _ Fit) w0 W0) as (fn0 & fs0 & D).
    destruct (history_inv u c k m n O Hn Hfl _ dk1 Hi1 Fit1 w1 W1) as (fn1 & fs1 & D1).
    split; [|split].
    - eexists. split; [exact (di_dmd _ _ _ _ _ _ _ _ _ _ D1)|]. exists later, docs, earlier, dk1. split; [reflexivity|]. split; [exact Si|].
      exists (files_of dk1). split; [exact (append_stopped_start u c k m n F _ dk1 docs Hi1 Fit1)|exact (di_dmd _ _ _ _ _ _ _ _ _ _ D1)].
    - unfold files_of. cbn [w_shards]. rewrite map_length, (di_shards _ _ _ _ _ _ _ _ _ _ D1), (di_shards _ _ _ _ _ _ _ _ _ _ D). reflexivity.
    - intros j fl Ej. unfold files_of in Ej. cbn [w_shards] in Ej. rewrite nth_error_map in Ej. destruct (nth_error (k_shards dk1) j) as [[iix pos]|] eqn:E0; [|discriminate Ej].
      cbn [option_map fst snd] in Ej. assert (fl = (Some iix, Some pos)) as -> by congruence. exists pos. split; [reflexivity|].
      exists later, docs, earlier, dk1. split; [reflexivity|]. split; [exact Si|].
      pose proof (df_len _ Fit1) as L0. change (2 ^ 32) with 4294967296 in L0.
      destruct (open_start u c k m n O Hn Hfl _ _ _ _ _ D1 ltac:(lia)) as (x & ws & Ex & I).
      assert (Lj : (j < n)%nat) by (rewrite <- (di_shards _ _ _ _ _ _ _ _ _ _ D1); eapply nth_len, E0).
      destruct (nth_ex (x_shards x) j) as [s0 Es0]; [rewrite (xi_shards _ _ _ _ _ _ _ _ _ _ I); exact Lj|].
      destruct (di_closed _ _ _ _ _ _ _ _ _ _ D1 j _ E0) as (y & log & J & Fl & Sz & Ef).
      assert (s0 = y) as ->.
      { destruct (open_indexer_parts c k m n F dk1 x ws Ex (di_cfg _ _ _ _ _ _ _ _ _ _ D1)) as (_ & _ & X4). destruct (for_shards_nth _ _ _ _ X4) as [_ Nx].
        destruct (Nx j s0 Es0) as (i4 & p4 & E4 & E5). rewrite E0, Ef in E4. injection E4 as <- <-.
        rewrite (shard_append_spec y log _ J Fl Sz) in E5. congruence. }
      assert (pos = x_file y) as -> by congruence.
      change (x_file y) with (x_file (v_shard (MkServer (P := post) VRecv y false))).
      eapply posting_between; [exact Ex|apply steps_refl|]. unfold session_start, init. cbn [s_servers]. rewrite nth_error_map, Es0. reflexivity.
  Qed.
End A.
