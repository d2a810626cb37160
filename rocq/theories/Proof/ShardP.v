(** A shard holds, for every slot, exactly the documents posted to it. *)
From Verif Require Import Model.Base Model.Address Model.Varint Model.Post Model.Poster Model.Shard
  Spec.Postings Spec.Reading Proof.Tactics Proof.VarintP Proof.PosterP.
Local Open Scope N_scope.

(** * squeeze, from the right *)
Definition snoc_new (ids : list N) (v : N) : list N :=
  match ids with
  | [] => [v]
  | _ => if last ids 0 =? v then ids else ids ++ [v]
  end.

Lemma squeeze_nil l : squeeze l = [] -> l = [].
Proof.
  induction l as [|x r IH]; [auto|]. cbn [squeeze]. destruct r as [|y r]; [discriminate|].
  destruct (x =? y); [|discriminate]. intros H. apply IH in H. discriminate.
Qed.

Lemma last_snoc {A} (l : list A) x d : last (l ++ [x]) d = x.
Proof. induction l as [|y l IH]; [reflexivity|]. cbn [app last]. destruct (l ++ [x]) eqn:E; [destruct l; discriminate|]. exact IH. Qed.

Lemma squeeze_last l : last (squeeze l) 0 = last l 0.
Proof.
  induction l as [|x r IH]; [reflexivity|]. cbn [squeeze].
  destruct r as [|y r]; [reflexivity|].
  destruct (x =? y).
  - rewrite IH. reflexivity.
  - cbn [last] in *. destruct (squeeze (y :: r)) as [|z q] eqn:E; [apply squeeze_nil in E; discriminate|].
    exact IH.
Qed.

Lemma squeeze_cons2 x y r : squeeze (x :: y :: r) = if x =? y then squeeze (y :: r) else x :: squeeze (y :: r).
Proof. reflexivity. Qed.

Lemma squeeze_snoc l v : squeeze (l ++ [v]) = snoc_new (squeeze l) v.
Proof.
  induction l as [|x r IH]; [reflexivity|].
  destruct r as [|y r].
  - cbn [app squeeze snoc_new last]. destruct (N.eqb_spec x v) as [->|]; reflexivity.
  - change ((x :: y :: r) ++ [v]) with (x :: y :: (r ++ [v])).
    rewrite !squeeze_cons2. destruct (x =? y) eqn:Exy.
    + exact IH.
    + cbn [app] in IH. rewrite IH.
      destruct (squeeze (y :: r)) as [|z q] eqn:E; [apply squeeze_nil in E; discriminate|].
      cbn [snoc_new].
      change (last (x :: z :: q) 0) with (last (z :: q) 0).
      destruct (last (z :: q) 0 =? v); reflexivity.
Qed.

Lemma snoc_new_length ids v : (length (snoc_new ids v) <= S (length ids))%nat.
Proof. unfold snoc_new. destruct ids; [auto|]. destruct (_ =? v); rewrite ?app_length; cbn [length]; lia. Qed.
Lemma snoc_new_length_ge ids v : (length ids <= length (snoc_new ids v))%nat.
Proof. unfold snoc_new. destruct ids; [cbn; lia|]. destruct (_ =? v); rewrite ?app_length; cbn [length]; lia. Qed.

(** * One poster *)
Definition poster_inv (s : nat) (log : list entry) (p : poster) (ids : list N) : Prop :=
  p_link p = link_pos s 0 log /\ p_head p = next_off s 0 log /\
  p_current p = last ids 0 /\ p_total p = u32 (nlen ids) /\ Forall d32 ids /\
  exists pend, p_posts p = payload pend /\ Forall d32 pend /\ (length (payload pend) < 512)%nat /\
    sums 0 (concat (chunks s log) ++ pend) = ids.

Lemma last_d32 ids : Forall d32 ids -> d32 (last ids 0).
Proof.
  induction ids as [|x l IH]; intros H; [unfold d32; cbn; lia|]. inv H. cbn [last].
  destruct l; auto.
Qed.

Lemma last_default (l : list N) d : l <> [] -> last l d = last l 0.
Proof. destruct l as [|x l]; [congruence|]. intros _. apply last_indep. Qed.

Lemma sums_last_snoc ds d : sums 0 (ds ++ [d]) = sums 0 ds ++ [add32 (last (sums 0 ds) 0) d].
Proof. rewrite sums_app. reflexivity. Qed.

Lemma add32_sub32 c v : d32 c -> d32 v -> add32 c (sub32 v c) = v.
Proof. unfold d32, add32, sub32, u32. lia. Qed.
Lemma sub32_d32 v c : d32 (sub32 v c).
Proof. unfold sub32, u32, d32. lia. Qed.

(** Another slot's flush does not matter. *)
Lemma poster_inv_other s s' ds log p ids : s' <> s ->
  poster_inv s log p ids -> poster_inv s (log ++ [(s', ds)]) p ids.
Proof.
  intros Hs (H1 & H2 & H3 & H4 & H5 & pend & H6 & H7 & H8 & H9).
  assert ((s' =? s)%nat = false) as E by (apply Nat.eqb_neq; auto).
  unfold poster_inv. rewrite link_pos_snoc, next_off_snoc, chunks_snoc, E, app_nil_r.
  repeat split; auto.
  - rewrite H2. destruct (Z.eqb_spec (next_off s 0 log) (-1)); congruence.
  - exists pend. auto.
Qed.

Lemma flush_inv s log p ids f : f = render 0 log -> log_ok log -> poster_inv s log p ids ->
  exists log', apply_wops f (snd (flush_to p f)) = render 0 log' /\ log_ok log' /\
    poster_inv s log' (fst (flush_to p f)) ids /\ p_posts (fst (flush_to p f)) = [] /\
    (log' = log \/ exists ds, log' = log ++ [(s, ds)]).
Proof.
  intros Hf Hok (H1 & H2 & H3 & H4 & H5 & pend & H6 & H7 & H8 & H9).
  destruct pend as [|d pend].
  - exists log. assert (flush_to p f = (p, [])) as -> by (unfold flush_to; rewrite H6; reflexivity).
    cbn [fst snd apply_wops fold_left]. repeat split; auto. exists []. auto.
  - set (ds := d :: pend) in *.
    pose proof (flush_to_spec s log p f ds Hf H1 H2 H6 ltac:(discriminate)) as Sp.
    destruct (flush_to p f) as [p' ws]. destruct Sp as [S1 S2]. cbn [fst snd].
    exists (log ++ [(s, ds)]). split; [exact S1|]. split.
    { apply Forall_app. split; [exact Hok|]. constructor; [|constructor].
      unfold entry_ok. cbn [snd]. repeat split; auto; [discriminate|lia]. }
    subst p'. cbn [p_posts]. repeat split; eauto.
    exists []. cbn [p_posts]. repeat split; auto; [cbn; lia|].
    rewrite chunks_snoc, Nat.eqb_refl, concat_app. cbn [concat]. rewrite !app_nil_r. exact H9.
Qed.

(** AddPost with the flush left out. *)
Lemma add_post_inv s log p ids f v : f = render 0 log -> log_ok log -> poster_inv s log p ids ->
  d32 v -> nlen ids < 4294967296 ->
  exists log', apply_wops f (snd (add_post p v f)) = render 0 log' /\ log_ok log' /\
    poster_inv s log' (fst (add_post p v f)) (snoc_new ids v) /\
    (log' = log \/ exists ds, log' = log ++ [(s, ds)]).
Proof.
  intros Hf Hok Hinv Hv Hn.
  pose proof Hinv as (H1 & H2 & H3 & H4 & H5 & pend & H6 & H7 & H8 & H9).
  unfold add_post.
  assert (u32 (nlen ids) = nlen ids) as Eu by (unfold u32; lia).
  destruct ((p_current p =? v) && negb (p_total p =? 0)) eqn:E.
  - exists log. cbn [fst snd apply_wops fold_left].
    refine (conj (eq_sym _) (conj Hok (conj _ (or_introl eq_refl)))); [auto|].
    apply andb_prop in E. destruct E as [E1 E2].
    assert (ids <> []) by (intros ->; rewrite H4 in E2; discriminate E2).
    assert (snoc_new ids v = ids) as ->; [|exact Hinv].
    unfold snoc_new. destruct ids; [congruence|]. rewrite <- H3, E1. reflexivity.
  - assert (snoc_new ids v = ids ++ [v]) as Es.
    { unfold snoc_new. destruct ids as [|i0 ids0]; [reflexivity|].
      rewrite <- H3. destruct (p_current p =? v); [|reflexivity].
      cbn [andb] in E. rewrite H4, Eu in E. unfold nlen in E. cbn [length] in E.
      destruct (N.eqb_spec (N.of_nat (S (length ids0))) 0); [lia|discriminate]. }
    set (delta := sub32 v (p_current p)).
    set (p1 := MkPoster _ _ _ _ _).
    assert (Hp1 : p_link p1 = link_pos s 0 log /\ p_head p1 = next_off s 0 log /\
      p_current p1 = last (ids ++ [v]) 0 /\ p_total p1 = u32 (nlen (ids ++ [v])) /\
      Forall d32 (ids ++ [v]) /\ p_posts p1 = payload (pend ++ [delta]) /\
      Forall d32 (pend ++ [delta]) /\ (length (payload (pend ++ [delta])) <= 516)%nat /\
      sums 0 (concat (chunks s log) ++ pend ++ [delta]) = ids ++ [v]).
    { unfold p1. cbn [p_link p_head p_current p_total p_posts].
      rewrite payload_app, last_snoc, H4, Eu.
      assert (payload [delta] = put_uvarint delta) as -> by (unfold payload; cbn [map concat]; apply app_nil_r).
      rewrite H6. repeat split; auto.
      - unfold nlen. rewrite app_length. cbn [length]. f_equal. lia.
      - apply Forall_app. auto.
      - apply Forall_app. split; [auto|]. constructor; [apply sub32_d32|constructor].
      - rewrite app_length.
        pose proof (put_uvarint_len32 delta (sub32_d32 v (p_current p))). lia.
      - rewrite app_assoc, sums_last_snoc, H9. do 2 f_equal. unfold delta. rewrite H3.
        apply add32_sub32; [apply last_d32|]; assumption. }
    destruct Hp1 as (P1 & P2 & P3 & P4 & P5 & P6 & P7 & P8 & P9).
    destruct (Nat.leb_spec flush_rate (length (p_posts p1))) as [L|L].
    + assert (pend ++ [delta] <> []) as Hne by (destruct pend; discriminate).
      pose proof (flush_to_spec s log p1 f (pend ++ [delta]) Hf P1 P2 P6 Hne) as Sp.
      destruct (flush_to p1 f) as [p' ws]. destruct Sp as [S1 S2]. cbn [fst snd].
      exists (log ++ [(s, pend ++ [delta])]). split; [exact S1|]. split.
      { apply Forall_app. split; [exact Hok|]. constructor; [|constructor].
        unfold entry_ok. cbn [snd]. auto. }
      split; [|eauto]. subst p'. rewrite Es. unfold poster_inv.
      cbn [p_link p_head p_current p_total p_posts]. repeat split; auto.
      exists []. repeat split; auto; [cbn; lia|].
      rewrite chunks_snoc, Nat.eqb_refl, concat_app. cbn [concat]. rewrite !app_nil_r. exact P9.
    + exists log. cbn [fst snd apply_wops fold_left].
      refine (conj (eq_sym _) (conj Hok (conj _ (or_introl eq_refl)))); [auto|].
      rewrite Es. repeat split; auto.
      exists (pend ++ [delta]). unfold flush_rate in L. rewrite P6 in L. auto.
Qed.

(** * The shard *)
Definition content := nat -> list N.
Definition shard_inv (x : shard) (log : list entry) (c : content) : Prop :=
  length (x_ind x) = num_slots /\ x_file x = render 0 log /\ log_ok log /\
  Forall (fun e => (fst e < num_slots)%nat) log /\
  forall s p, nth_error (x_ind x) s = Some p -> poster_inv s log p (c s).

Definition slot_of (p : post) : nat := N.to_nat (post_blot p mod 65536).
Definition add_to (c : content) (p : post) : content :=
  fun s => if (s =? slot_of p)%nat then snoc_new (c s) (post_docid p) else c s.

Lemma land_ffff x : N.land x 65535 = x mod 65536.
Proof. change 65535 with (N.ones 16). rewrite N.land_ones. reflexivity. Qed.

Lemma num_slots_val : num_slots = Z.to_nat 65536.
Proof. reflexivity. Qed.
Lemma slot_of_lt p : (slot_of p < num_slots)%nat.
Proof. unfold slot_of. rewrite num_slots_val. lia. Qed.

Lemma post_docid_d32 p : d32 (post_docid p).
Proof. unfold post_docid, u32, d32. lia. Qed.

Lemma upd_inv x log log' c s p c' f' :
  shard_inv x log c -> (s < num_slots)%nat ->
  (log' = log \/ exists ds, log' = log ++ [(s, ds)]) ->
  f' = render 0 log' -> log_ok log' -> poster_inv s log' p (c' s) ->
  (forall s', s' <> s -> c' s' = c s') ->
  shard_inv (MkShard (upd s p (x_ind x)) f') log' c'.
Proof.
  intros (I1 & I2 & I3 & I4 & I5) Hs Hlog Hf Hok Hp Hc.
  unfold shard_inv. cbn [x_ind x_file]. rewrite upd_length.
  split; [auto|]. split; [auto|]. split; [auto|]. split.
  - destruct Hlog as [->|[ds ->]]; auto. apply Forall_app. split; auto.
  - intros s' p' H. rewrite nth_error_upd in H. destruct (Nat.eqb_spec s s') as [<-|Hne].
    + destruct (nth_error (x_ind x) s); inv H. exact Hp.
    + rewrite Hc by congruence. apply I5 in H.
      destruct Hlog as [->|[ds ->]]; auto. apply poster_inv_other; auto.
Qed.

Lemma serve_post_inv x log c p : shard_inv x log c -> nlen (c (slot_of p)) < 4294967296 ->
  exists log', shard_inv (serve_post x p) log' (add_to c p).
Proof.
  intros I Hn. pose proof I as (I1 & I2 & I3 & I4 & I5).
  unfold serve_post, serve_post_w, serve_slot. rewrite land_ffff. fold (slot_of p).
  pose proof (slot_of_lt p) as Hs.
  destruct (nth_error (x_ind x) (slot_of p)) as [po|] eqn:E.
  2: apply nth_error_None in E; lia.
  destruct (add_post_inv _ log po _ (x_file x) (post_docid p) I2 I3 (I5 _ _ E) (post_docid_d32 p) Hn)
    as (log' & L1 & L2 & L3 & L4).
  destruct (add_post po (post_docid p) (x_file x)) as [po' ws]. cbn [fst snd] in *.
  exists log'. eapply upd_inv; eauto.
  - unfold add_to. rewrite Nat.eqb_refl. exact L3.
  - intros s' Hne. unfold add_to. destruct (Nat.eqb_spec s' (slot_of p)); congruence.
Qed.

Lemma squeeze_length l : (length (squeeze l) <= length l)%nat.
Proof.
  induction l as [|x r IH]; [auto|]. cbn [squeeze]. destruct r as [|y r]; [auto|].
  destruct (x =? y); cbn [length] in *; lia.
Qed.

(** Content after serving [ps], starting from the history [hist]. *)
Definition content_of (hist : list post) : content := fun s => squeeze (posted s hist).

Lemma posted_app s l1 l2 : posted s (l1 ++ l2) = posted s l1 ++ posted s l2.
Proof. unfold posted. rewrite filter_app, map_app. reflexivity. Qed.

Lemma add_to_content hist p s : add_to (content_of hist) p s = content_of (hist ++ [p]) s.
Proof.
  unfold add_to, content_of. rewrite posted_app.
  assert (posted s [p] = if post_blot p mod 65536 =? N.of_nat s then [post_docid p] else []) as ->
    by (unfold posted; cbn [filter]; destruct (_ =? N.of_nat s); reflexivity).
  unfold slot_of. destruct (Nat.eqb_spec s (N.to_nat (post_blot p mod 65536))) as [E|E].
  - assert ((post_blot p mod 65536 =? N.of_nat s) = true) as -> by lia.
    rewrite squeeze_snoc. reflexivity.
  - assert ((post_blot p mod 65536 =? N.of_nat s) = false) as -> by lia.
    rewrite app_nil_r. reflexivity.
Qed.

Lemma shard_inv_ext x log c c' : (forall s, c s = c' s) -> shard_inv x log c -> shard_inv x log c'.
Proof.
  intros E (I1 & I2 & I3 & I4 & I5). unfold shard_inv.
  split; [auto|]. split; [auto|]. split; [auto|]. split; [auto|].
  intros s p H. rewrite <- E. auto.
Qed.

(** Fewer than 2^32 posts per slot, so that totals do not wrap. *)
Definition bounded (hist : list post) : Prop :=
  forall s, nlen (squeeze (posted s hist)) < 4294967296.

Lemma squeeze_prefix_length l1 l2 : (length (squeeze l1) <= length (squeeze (l1 ++ l2)))%nat.
Proof.
  revert l1; induction l2 as [|x l2 IH]; intros l1; [rewrite app_nil_r; auto|].
  replace (l1 ++ x :: l2) with ((l1 ++ [x]) ++ l2) by (rewrite <- app_assoc; reflexivity).
  etransitivity; [|apply IH]. rewrite squeeze_snoc. apply snoc_new_length_ge.
Qed.

Lemma bounded_app_l h1 h2 : bounded (h1 ++ h2) -> bounded h1.
Proof.
  intros H s. specialize (H s). rewrite posted_app in H. unfold nlen in *.
  pose proof (squeeze_prefix_length (posted s h1) (posted s h2)). lia.
Qed.

Lemma serve_batch_inv ps : forall x log hist,
  shard_inv x log (content_of hist) -> bounded (hist ++ ps) ->
  exists log', shard_inv (serve_batch x ps) log' (content_of (hist ++ ps)).
Proof.
  induction ps as [|p ps IH]; intros x log hist I B; cbn [serve_batch fold_left].
  - rewrite app_nil_r. eauto.
  - destruct (serve_post_inv x log _ p I) as [log1 I1].
    { apply (bounded_app_l hist (p :: ps) B). }
    eapply shard_inv_ext in I1; [|intros s; apply add_to_content].
    replace (hist ++ p :: ps) with ((hist ++ [p]) ++ ps) in * by (rewrite <- app_assoc; reflexivity).
    exact (IH _ _ _ I1 B).
Qed.

Lemma shard_create_inv : shard_inv shard_create [] (content_of []).
Proof.
  unfold shard_inv, shard_create. cbn [x_ind x_file]. rewrite repeat_length.
  split; [auto|]. split; [auto|]. split; [constructor|]. split; [constructor|].
  intros s p H. apply nth_error_In, repeat_spec in H. subst p. unfold poster_inv.
  do 4 (split; [reflexivity|]). split; [constructor|].
  exists []. do 3 (split; [auto; cbn; lia || constructor|]). reflexivity.
Qed.

(** * Closing *)
Lemma flush_ind_inv n : forall i x log c,
  shard_inv x log c -> (i + n <= num_slots)%nat ->
  (forall s p, (s < i)%nat -> nth_error (x_ind x) s = Some p -> p_posts p = []) ->
  exists log', shard_inv (fst (flush_ind_w n i x)) log' c /\
    forall s p, (s < i + n)%nat -> nth_error (x_ind (fst (flush_ind_w n i x))) s = Some p -> p_posts p = [].
Proof.
  induction n as [|n IH]; intros i x log c I Hi Hd; cbn [flush_ind_w].
  - exists log. cbn [fst]. rewrite Nat.add_0_r. auto.
  - pose proof I as (I1 & I2 & I3 & I4 & I5).
    destruct (nth_error (x_ind x) i) as [po|] eqn:E.
    2: apply nth_error_None in E; lia.
    destruct (flush_inv i log po _ (x_file x) I2 I3 (I5 _ _ E)) as (log1 & L1 & L2 & L3 & L4 & L5).
    destruct (flush_to po (x_file x)) as [po' ws]. cbn [fst snd] in *.
    set (x1 := MkShard _ _).
    assert (shard_inv x1 log1 c) as Ix1 by (eapply upd_inv; eauto; lia).
    destruct (IH (S i) x1 log1 c Ix1 ltac:(lia)) as (log2 & J1 & J2).
    { intros s p Hs H. unfold x1 in H. cbn [x_ind] in H. rewrite nth_error_upd in H.
      destruct (Nat.eqb_spec i s) as [<-|Hne].
      - rewrite E in H. inv H. exact L4.
      - apply (Hd s); [lia | exact H]. }
    destruct (flush_ind_w n (S i) x1) as [x2 ws']. cbn [fst] in *.
    exists log2. split; [exact J1|]. intros s p Hs. apply J2. lia.
Qed.

(** A shard all of whose posts are on disk. *)
Definition flushed (x : shard) : Prop := Forall (fun p => p_posts p = []) (x_ind x).

Lemma flush_ind_spec x log c : shard_inv x log c ->
  exists log', shard_inv (flush_ind x) log' c /\ flushed (flush_ind x).
Proof.
  intros I. pose proof I as (I1 & _). unfold flush_ind. rewrite I1.
  destruct (flush_ind_inv num_slots 0 x log c I) as (log' & J1 & J2); [lia| intros; lia |].
  exists log'. split; [exact J1|]. apply Forall_forall. intros p Hp.
  apply In_nth_error in Hp. destruct Hp as [s Hs].
  apply (J2 s); [|exact Hs]. pose proof J1 as (K1 & _). rewrite <- K1.
  rewrite Nat.add_0_l. apply nth_error_Some. congruence.
Qed.

(** * Size of the posting file *)
Lemma payload_length_le ds : Forall d32 ds -> (length (payload ds) <= 5 * length ds)%nat.
Proof.
  induction ds as [|d r IH]; intros H; [cbn; lia|]. inv H.
  change (payload (d :: r)) with (put_uvarint d ++ payload r). rewrite app_length.
  pose proof (put_uvarint_len32 d H2). specialize (IH H3). cbn [length]. lia.
Qed.

Definition log_count (log : list entry) : nat := length (concat (map snd log)).

Lemma log_size_count log : log_ok log -> (log_size log <= 23 * log_count log)%nat.
Proof.
  induction log as [|[s ds] r IH]; intros H; [cbn; lia|]. inv H.
  destruct H2 as (Hne & Hd & _). cbn [snd] in *.
  unfold log_count in *. cbn [log_size map snd concat]. rewrite app_length.
  specialize (IH H3). unfold chunk_len, chunk_hdr.
  pose proof (put_varint_len (Z.of_nat (length (payload ds) + 8))).
  pose proof (payload_length_le ds Hd). destruct ds; [congruence|]. cbn [length] in *. lia.
Qed.

Fixpoint sum_to (n : nat) (g : nat -> N) : N :=
  match n with O => 0 | S k => sum_to k g + g k end.
Lemma sum_to_le n g h : (forall i, (i < n)%nat -> g i <= h i) -> sum_to n g <= sum_to n h.
Proof. induction n as [|n IH]; intros H; cbn [sum_to]; [lia|]. pose proof (H n). specialize (IH ltac:(intros; apply H; lia)). lia. Qed.
Lemma sum_to_bound n g b : (forall i, (i < n)%nat -> g i <= b) -> sum_to n g <= N.of_nat n * b.
Proof. induction n as [|n IH]; intros H; cbn [sum_to]; [lia|]. pose proof (H n). specialize (IH ltac:(intros; apply H; lia)). nia. Qed.
Lemma sum_to_ext n g h : (forall i, (i < n)%nat -> g i = h i) -> sum_to n g = sum_to n h.
Proof. induction n as [|n IH]; intros H; cbn [sum_to]; auto. rewrite IH by (intros; apply H; lia). rewrite H by lia. reflexivity. Qed.

Lemma sum_to_bump n g s k : (s < n)%nat ->
  sum_to n (fun i => if (s =? i)%nat then k + g i else g i) = k + sum_to n g.
Proof.
  induction n as [|n IH]; intros H; [lia|]. cbn [sum_to].
  destruct (Nat.eqb_spec s n) as [->|Hne].
  - rewrite (sum_to_ext n _ g); [lia|]. intros i Hi. destruct (Nat.eqb_spec n i); [lia|reflexivity].
  - rewrite IH by lia. lia.
Qed.

Lemma log_count_sum n log : Forall (fun e => (fst e < n)%nat) log ->
  N.of_nat (log_count log) = sum_to n (fun s => nlen (concat (chunks s log))).
Proof.
  induction log as [|[s ds] r IH]; intros H.
  - unfold log_count, chunks. cbn. induction n as [|n IHn]; [reflexivity|]. cbn [sum_to].
    rewrite <- IHn by constructor. reflexivity.
  - inv H. cbn [fst] in *. unfold log_count in *. cbn [map snd concat]. rewrite app_length.
    rewrite Nat2N.inj_add, (IH H3). rewrite <- (sum_to_bump n _ s) by assumption.
    apply sum_to_ext. intros i Hi. unfold chunks. cbn [filter fst].
    destruct (s =? i)%nat; [|reflexivity]. cbn [map snd concat]. unfold nlen. rewrite app_length. lia.
Qed.

Lemma poster_inv_count s log p ids : poster_inv s log p ids -> nlen (concat (chunks s log)) <= nlen ids.
Proof.
  intros (_ & _ & _ & _ & _ & pend & _ & _ & _ & H). unfold nlen.
  rewrite <- H, sums_length, app_length. lia.
Qed.

Lemma shard_file_size x log c : shard_inv x log c ->
  (forall s, nlen (c s) < 4294967296) -> (Z.of_nat (log_size log) < 9223372036854775808)%Z.
Proof.
  intros (I1 & I2 & I3 & I4 & I5) H.
  pose proof (log_size_count log I3) as L.
  pose proof (log_count_sum num_slots log I4) as C.
  assert (sum_to num_slots (fun s => nlen (concat (chunks s log))) <= N.of_nat num_slots * 4294967296) as B.
  { apply sum_to_bound. intros s Hs.
    destruct (nth_error (x_ind x) s) as [p|] eqn:E.
    - pose proof (poster_inv_count _ _ _ _ (I5 s p E)). specialize (H s). lia.
    - apply nth_error_None in E. lia. }
  rewrite <- C, num_slots_val in B. lia.
Qed.

(** * The table *)
Definition table_ok (p : poster) : Prop :=
  (-9223372036854775808 <= p_head p < 9223372036854775808)%Z /\
  p_total p < 4294967296 /\ p_current p < 4294967296.

Lemma read_bytes_app d : forall rest, read_bytes (length d) (d ++ rest) = Ok (d, rest).
Proof. induction d as [|b d IH]; intros rest; [reflexivity|]. cbn [length read_bytes app]. rewrite IH. reflexivity. Qed.

Lemma lax_uvarint_ok k : forall r x s v r', read_uvarint_aux k r x s = Ok (v, r') -> lax_uvarint_aux k r x s = (v, r').
Proof.
  induction k as [|k IH]; intros r x s v r' H; cbn [read_uvarint_aux lax_uvarint_aux] in *; [discriminate|]. destruct r as [|b r]; [discriminate|].
  destruct (b <? 128); [|apply IH, H]. destruct (_ && _); congruence.
Qed.
Lemma lax_varint_ok r v r' : read_varint r = Ok (v, r') -> lax_varint r = (v, r').
Proof.
  unfold read_varint, read_uvarint, lax_varint. destruct (read_uvarint_aux _ r 0 0) as [[ux r1]| | |] eqn:E; try discriminate. cbn [bind].
  rewrite (lax_uvarint_ok _ _ _ _ _ _ E). congruence.
Qed.
Lemma init_append_spec p rest : table_ok p ->
  init_append (concat (iix_entry_writes p) ++ rest) =
  Ok (MkPoster (-1) (p_head p) (p_current p) (p_total p) [], rest).
Proof.
  intros (H1 & H2 & H3). unfold init_append, iix_entry_writes. cbn [concat]. rewrite app_nil_r, <- !app_assoc.
  rewrite read_varint_put by assumption. cbn [bind].
  rewrite (lax_varint_ok _ _ _ (read_varint_put (Z.of_N (p_total p)) _ ltac:(lia))). cbn [bind].
  assert ((Z.of_N (p_total p) <? 0)%Z || (4294967296 <=? Z.of_N (p_total p))%Z = false) as ->
    by (apply orb_false_intro; lia).
  change 4%nat with (length (put_be32 (p_current p))).
  rewrite read_bytes_app. cbn [bind]. rewrite <- (app_nil_r (put_be32 _)), be32_put by assumption.
  rewrite N2Z.id. reflexivity.
Qed.

Lemma iix_bytes_cons p ps : iix_bytes (p :: ps) = concat (iix_entry_writes p) ++ iix_bytes ps.
Proof. unfold iix_bytes, iix_writes. cbn [map concat]. apply concat_app. Qed.

Lemma read_iix_spec ps rest : Forall table_ok ps ->
  read_iix (length ps) (iix_bytes ps ++ rest) =
  Ok (map (fun p => MkPoster (-1) (p_head p) (p_current p) (p_total p) []) ps).
Proof.
  revert rest; induction ps as [|p ps IH]; intros rest H; [reflexivity|]. inv H.
  cbn [length read_iix map]. rewrite iix_bytes_cons, <- app_assoc, init_append_spec by assumption.
  cbn [bind]. rewrite IH by assumption. reflexivity.
Qed.

Lemma read_table_spec ps rest : Forall table_ok ps ->
  read_table (length ps) (iix_bytes ps ++ rest) = Ok (map (fun p => (p_head p, p_total p)) ps).
Proof.
  revert rest; induction ps as [|p ps IH]; intros rest H; [reflexivity|]. inv H.
  destruct H2 as (H1 & H2 & H4).
  cbn [length read_table map]. rewrite iix_bytes_cons. unfold iix_entry_writes. cbn [concat].
  rewrite app_nil_r, <- !app_assoc.
  rewrite read_varint_put by assumption. cbn [bind].
  rewrite read_varint_put by lia. cbn [bind].
  assert ((Z.of_N (p_total p) <? 0)%Z || (4294967296 <=? Z.of_N (p_total p))%Z = false) as ->
    by (apply orb_false_intro; lia).
  change 4%nat with (length (put_be32 (p_current p))).
  rewrite read_bytes_app. cbn [bind]. rewrite IH by assumption. cbn [bind]. rewrite N2Z.id. reflexivity.
Qed.

Lemma shard_inv_table_ok x log c : shard_inv x log c ->
  (Z.of_nat (log_size log) < 9223372036854775808)%Z -> Forall table_ok (x_ind x).
Proof.
  intros (I1 & I2 & I3 & I4 & I5) Hsz. apply Forall_forall. intros p Hp.
  apply In_nth_error in Hp. destruct Hp as [s Hs].
  destruct (I5 s p Hs) as (H1 & H2 & H3 & H4 & H5 & _). unfold table_ok. repeat split.
  - rewrite H2. destruct (next_off_range s log 0); lia.
  - rewrite H2. destruct (next_off_range s log 0); lia.
  - rewrite H4. unfold u32. lia.
  - rewrite H3. apply last_d32. assumption.
Qed.

Lemma read_links_spec log c : log_ok log -> (Z.of_nat (log_size log) < 9223372036854775808)%Z ->
  forall ps i, Forall (fun p => p_posts p = []) ps ->
  (forall s p, nth_error ps s = Some p -> poster_inv (i + s) log p (c (i + s)%nat)) ->
  read_links (map (fun p => MkPoster (-1) (p_head p) (p_current p) (p_total p) []) ps) (render 0 log) = Ok ps.
Proof.
  intros Hok Hsz. induction ps as [|p ps IH]; intros i Hf H; [reflexivity|]. inv Hf.
  cbn [map read_links].
  destruct (H O p eq_refl) as (H1 & H2' & H4 & H5 & _). rewrite Nat.add_0_r in *.
  rewrite (read_to_link_spec log i) by auto. cbn [bind p_head p_current p_total p_posts].
  rewrite (IH (S i)); auto.
  - cbn [bind]. do 2 f_equal. destruct p. cbn in *. congruence.
  - intros s p' Hs. replace (S i + s)%nat with (i + S s)%nat by lia. apply H. exact Hs.
Qed.

(** Re-opening a closed shard gives back the very same state. *)
Lemma shard_append_spec x log c : shard_inv x log c -> flushed x ->
  (Z.of_nat (log_size log) < 9223372036854775808)%Z ->
  shard_append (iix_bytes (x_ind x)) (x_file x) = Ok x.
Proof.
  intros I Hf Hsz. pose proof (shard_inv_table_ok _ _ _ I Hsz) as T.
  destruct I as (I1 & I2 & I3 & I4 & I5).
  unfold shard_append. rewrite <- I1. rewrite <- (app_nil_r (iix_bytes _)), read_iix_spec by assumption.
  cbn [bind]. rewrite I2. rewrite (read_links_spec log c) with (i := O); auto.
  cbn [bind]. rewrite <- I2. destruct x; reflexivity.
Qed.

(** * Histories *)
Definition closed_files (files : bytes * bytes) (hist : list post) : Prop :=
  exists x log, shard_inv x log (content_of hist) /\ flushed x /\
    (Z.of_nat (log_size log) < 9223372036854775808)%Z /\
    files = (iix_bytes (x_ind x), x_file x).

Lemma close_closed x log hist : shard_inv x log (content_of hist) -> bounded hist ->
  closed_files (shard_close x) hist.
Proof.
  intros I B. destruct (flush_ind_spec x log _ I) as (log' & J1 & J2).
  exists (flush_ind x), log'. split; [exact J1|]. split; [exact J2|]. split; [|reflexivity].
  apply (shard_file_size _ _ _ J1). intros s. apply B.
Qed.

Lemma shard_history_spec ss : forall files hist,
  closed_files files hist -> bounded (hist ++ concat ss) ->
  exists files', shard_history files ss = Ok files' /\ closed_files files' (hist ++ concat ss).
Proof.
  induction ss as [|ps ss IH]; intros files hist Hc B; cbn [shard_history concat].
  - rewrite app_nil_r in *. eauto.
  - destruct Hc as (x & log & I & Hf & Hsz & ->). cbn [fst snd].
    rewrite (shard_append_spec x log _ I Hf Hsz). cbn [bind concat] in *.
    rewrite app_assoc in *.
    destruct (serve_batch_inv ps x log hist I) as [log' I'].
    { apply (bounded_app_l _ _ B). }
    apply (IH (shard_close (serve_batch x ps)) (hist ++ ps)); [|exact B].
    eapply close_closed; eauto. apply (bounded_app_l _ _ B).
Qed.

Lemma shard_sessions_spec first ss : bounded (first ++ concat ss) ->
  exists files, shard_sessions first ss = Ok files /\ closed_files files (first ++ concat ss).
Proof.
  intros B. unfold shard_sessions. apply shard_history_spec; [|exact B].
  destruct (serve_batch_inv first shard_create [] [] shard_create_inv) as [log I].
  { apply (bounded_app_l _ _ B). }
  eapply close_closed; eauto. apply (bounded_app_l _ _ B).
Qed.

(** * Reading *)
Lemma nth_map_error {A B} (g : A -> B) l s p d : nth_error l s = Some p -> nth s (map g l) d = g p.
Proof.
  intros H. apply nth_error_nth. rewrite nth_error_map, H. reflexivity.
Qed.

Lemma shard_open_spec sorted files hist : closed_files files hist -> bounded hist ->
  exists si, shard_open sorted (fst files) (snd files) = Ok si /\
    length (si_heads si) = num_slots /\ length (si_counts si) = num_slots /\
    si_perm si = sorted (si_counts si) /\
    forall s, (s < num_slots)%nat ->
      nth s (si_counts si) 0 = nlen (content_of hist s) /\
      reads (si_file si) (new_posts (nth s (si_heads si) (-1)%Z)) (content_of hist s).
Proof.
  intros (x & log & I & Hf & Hsz & ->) B. cbn [fst snd].
  pose proof (shard_inv_table_ok _ _ _ I Hsz) as T.
  destruct I as (I1 & I2 & I3 & I4 & I5).
  pose proof (read_table_spec (x_ind x) [] T) as R. rewrite app_nil_r, I1 in R.
  unfold shard_open. rewrite R.
  cbn [bind]. eexists. split; [reflexivity|]. cbn [si_heads si_counts si_perm si_file].
  rewrite !map_length. repeat split; auto.
  - destruct (nth_error (x_ind x) s) as [p|] eqn:E; [|apply nth_error_None in E; lia].
    rewrite map_map. cbn [snd]. rewrite (nth_map_error _ _ _ _ _ E).
    destruct (I5 s p E) as (_ & _ & _ & H4 & _). rewrite H4. specialize (B s).
    unfold content_of, u32. apply N.mod_small. exact B.
  - destruct (nth_error (x_ind x) s) as [p|] eqn:E; [|apply nth_error_None in E; lia].
    rewrite map_map. cbn [fst]. rewrite (nth_map_error _ _ _ _ _ E).
    destruct (I5 s p E) as (_ & H2 & _ & _ & _ & pend & H6 & _ & _ & H9).
    assert (p_posts p = []) as Hp.
    { apply nth_error_In in E. unfold flushed in Hf; rewrite Forall_forall in Hf. auto. }
    assert (pend = []) as ->.
    { rewrite H6 in Hp. pose proof (payload_length_ge pend) as L. rewrite Hp in L.
      destruct pend; [reflexivity|cbn in L; lia]. }
    rewrite app_nil_r in H9. rewrite <- H9, H2, I2. unfold new_posts.
    exact (reads_log log s I3 Hsz log [] 0%nat 0 [] eq_refl eq_refl).
Qed.

(** * Statements used by Props/Shard *)
Lemma shard_reads_back sorted first ss : bounded (first ++ concat ss) ->
  exists iix pos si, shard_sessions first ss = Ok (iix, pos) /\ shard_open sorted iix pos = Ok si /\
    forall s, (s < num_slots)%nat ->
      let ids := squeeze (posted s (first ++ concat ss)) in
      reads (si_file si) (rs_posts (read_state_for si s)) ids /\
      rs_total (read_state_for si s) = nlen ids.
Proof.
  intros B. destruct (shard_sessions_spec first ss B) as ([iix pos] & H1 & H2).
  destruct (shard_open_spec sorted _ _ H2 B) as (si & H3 & _ & _ & _ & H4).
  exists iix, pos, si. split; [exact H1|]. split; [exact H3|].
  intros s Hs. destruct (H4 s Hs) as [H5 H6].
  unfold read_state_for, read_state_for_blot_at. cbn [rs_posts rs_total]. split; assumption.
Qed.

Lemma shard_append_reachable first ss iix pos : bounded (first ++ concat ss) ->
  shard_sessions first ss = Ok (iix, pos) -> exists x, shard_append iix pos = Ok x.
Proof.
  intros B H. destruct (shard_sessions_spec first ss B) as (files & H1 & x & log & I & Hf & Hsz & E).
  rewrite H in H1. inv H1. inv H2. exists x. eapply shard_append_spec; eauto.
Qed.

Lemma reads_unique f ids1 : forall r ids2, reads f r ids1 -> reads f r ids2 -> ids1 = ids2.
Proof.
  induction ids1 as [|d l IH]; intros r [|d2 l2] H1 H2; cbn [reads] in *; auto.
  - destruct H2 as (? & H2 & _). congruence.
  - destruct H1 as (? & H1 & _). congruence.
  - destruct H1 as (r1 & H1 & H1'). destruct H2 as (r2 & H2 & H2'). rewrite H1 in H2. inv H2.
    f_equal. eauto.
Qed.
