(** Queries whose reads happen at different moments. *)
From Verif Require Import Model.Base Model.Utf8 Model.Token Model.Blotter Model.Address Model.Post Model.Poster Model.Shatter Model.Shard Model.Dmd Model.Fnames Model.Conc Model.Config Model.Json Model.Run Model.Index Model.Query Model.Session Model.Crash Model.Live Model.Varint Model.Moments.
From Verif Require Import Spec.Text Spec.Fingerprint Spec.Configs Spec.Posting Spec.Postings Spec.Paths Spec.Reading Spec.Querying Spec.History Spec.Live.
From Verif Require Import Proof.Tactics Proof.VarintP Proof.TokenP Proof.BlotterP Proof.ShatterP Proof.IndexP2 Proof.DmdP Proof.FnamesP Proof.FnamesP2 Proof.PosterP Proof.ShardP Proof.ConcP Proof.ConcRun Proof.QueryP Proof.SessionP Proof.SessionP2 Proof.KeepP Proof.CrashP Proof.CrashP2 Proof.CrashP3 Proof.LiveP.
From Coq Require Import Lia.
Local Open Scope N_scope.

(** * Reading *)
Lemma varint_during f p l b : b < 128 -> Forall (fun c => 128 <= c) l ->
  forall fuel t n buf, (forall t, exists rest, skipn (p + n) (f t) = l ++ b :: rest) -> (length l < fuel)%nat -> exists t',
  read_varint_during f fuel t (Z.of_nat p) (Z.of_nat n) buf =
  let '(v, m) := varint (buf ++ l ++ [b]) in
  if (m <=? 0)%Z then Err EOther else Ok (v, Z.of_nat (n + length l + 1), t').
Proof.
  intros Hb Hl. induction l as [|c l IH]; intros fuel t n buf H Hf; destruct fuel as [|k]; cbn [length] in *; try lia;
  cbn [read_varint_during]; destruct (H t) as [rest Ht].
  - cbn [app] in *. exists (S t). rewrite <- Nat2Z.inj_add.
    change 1%Z with (Z.of_nat (length [b])) at 1.
    rewrite (pread_skipn (f t) (p + n) [b] rest) by (cbn [length]; auto; lia).
    cbn [bind]. assert ((b <? 128) = true) as -> by lia.
    destruct (varint (buf ++ [b])) as [v m]. destruct (m <=? 0)%Z; [reflexivity|].
    do 3 f_equal. lia.
  - inv Hl. rewrite <- Nat2Z.inj_add. cbn [app] in *.
    change 1%Z with (Z.of_nat (length [c])) at 1.
    rewrite (pread_skipn (f t) (p + n) [c] (l ++ b :: rest)) by (cbn [length app]; auto; lia).
    cbn [bind]. assert ((c <? 128) = false) as -> by lia.
    replace (Z.of_nat n + 1)%Z with (Z.of_nat (S n)) by lia.
    destruct (IH H3 k (S t) (S n) (buf ++ [c])) as [t' E].
    + intros t2. destruct (H t2) as [r2 E2]. exists r2. replace (p + S n)%nat with ((p + n) + 1)%nat by lia. rewrite skipn_add, E2. reflexivity.
    + lia.
    + exists t'. rewrite E, <- app_assoc. cbn [app]. destruct (varint (buf ++ c :: l ++ [b])) as [v m].
      destruct (m <=? 0)%Z; [reflexivity|]. do 3 f_equal. lia.
Qed.
Lemma next_during f off s ds lk r t : (forall t, exists lk' f', skipn off (f t) = chunk_hdr ds ++ payload ds ++ lk' ++ f' /\ length lk' = 8%nat /\ (lk = None \/ lk = Some lk')) ->
  entry_ok (s, ds) -> r_nextpos r = Z.of_nat off ->
  exists t' lk', read_next_during f t r = Ok (MkPosts 0 (i64_of_u64 (be64 lk')) (last (sums (r_current r) ds) (r_current r)) (sums (r_current r) ds), t') /\
    (lk = None \/ lk = Some lk').
Proof.
  intros Sk (Hne & Hd & Hp) Hr. cbn [snd] in *. unfold read_next_during. rewrite Hr.
  set (z := Z.of_nat (length (payload ds) + 8)).
  assert (Hz : (-9223372036854775808 <= z < 9223372036854775808)%Z) by (unfold z; lia).
  assert (exists t', read_varint_during f max_varint_len64 t (Z.of_nat off) 0 [] = Ok (z, zlen (chunk_hdr ds), t')) as [t' ->].
  { pose proof (varint_put z [] Hz) as V. rewrite app_nil_r in V. pose proof (put_varint_len z) as Ln.
    destruct (put_uvarint_shape (zigzag z) (zigzag_range z Hz)) as (l & b & E & Hb & Hl).
    destruct (varint_during f off l b Hb Hl max_varint_len64 t 0 []) as [t' Et].
    - intros t2. destruct (Sk t2) as (lk2 & f2 & E2 & _). rewrite Nat.add_0_r, E2. unfold chunk_hdr. fold z. unfold put_varint. rewrite E.
      exists (payload ds ++ lk2 ++ f2). rewrite <- app_assoc. reflexivity.
    - unfold put_varint in Ln. rewrite E, app_length in Ln. cbn [length] in Ln. unfold max_varint_len64. lia.
    - exists t'. change (Z.of_nat 0) with 0%Z in Et. rewrite Et. cbn [app]. unfold put_varint in V. rewrite E in V. rewrite V.
      unfold chunk_hdr. fold z. unfold put_varint. rewrite E. unfold zlen. rewrite app_length in *. cbn [length] in *.
      assert ((Z.of_nat (length l + 1) <=? 0)%Z = false) as -> by lia. reflexivity. }
  cbn [wrap_err bind]. unfold reader_buf, z.
  assert ((Z.of_nat (length (payload ds) + 8) <? 0)%Z || (530 <? Z.of_nat (length (payload ds) + 8))%Z = false) as ->
    by (apply orb_false_intro; lia).
  destruct (Sk t') as (lk' & f' & Sk' & Lk & El). exists (S t'), lk'. split; [|exact El].
  unfold zlen. rewrite <- Nat2Z.inj_add.
  replace (length (payload ds) + 8)%nat with (length (payload ds ++ lk')) by (rewrite app_length, Lk; reflexivity).
  rewrite (pread_skipn _ _ _ f').
  2: rewrite app_length; lia.
  2: rewrite skipn_add, Sk', skipn_app_exact by reflexivity; rewrite <- app_assoc; reflexivity.
  cbn [wrap_err bind]. rewrite app_length, Lk.
  replace (Z.of_nat (length (payload ds) + 8) - 8)%Z with (0 + Z.of_nat (length (payload ds)))%Z by lia.
  rewrite decode_chunk_spec; auto.
  pose proof (payload_length_ge ds); lia.
Qed.
(** The first results of Next are [ids], whenever it is called. *)
Fixpoint first_during (f : nat -> bytes) (r : posts) (ids : list N) : Prop :=
  match ids with
  | [] => True
  | d :: rest => forall t, exists r' t', posts_next_during f t r = Ok (d, r', t') /\ first_during f r' rest
  end.
Lemma during_buffered f rest : forall todo i np cur done,
  i = length done ->
  first_during f (MkPosts (length (done ++ todo)) np cur (done ++ todo)) rest ->
  first_during f (MkPosts i np cur (done ++ todo)) (todo ++ rest).
Proof.
  induction todo as [|d t IH]; intros i np cur done -> H.
  - rewrite !app_nil_r in *. exact H.
  - cbn [app first_during]. intros t0. unfold posts_next_during. cbn [r_i r_docids r_nextpos r_current].
    assert ((length done =? length (done ++ d :: t))%nat = false) as ->
      by (rewrite app_length; cbn [length]; lia).
    cbn [bind r_i r_docids]. rewrite nth_error_app2, Nat.sub_diag by lia. cbn [nth_error].
    eexists. eexists. split; [reflexivity|].
    replace (done ++ d :: t) with ((done ++ [d]) ++ t) in * by (rewrite <- app_assoc; reflexivity).
    apply IH; [rewrite app_length; cbn [length]; lia|]. exact H.
Qed.
Lemma log_during log s f : log_ok log -> (Z.of_nat (log_size log) < 9223372036854775808)%Z -> (forall t, keeps 0 log (f t)) ->
  forall l2 l1 n cur ids, log = l1 ++ l2 -> n = length ids ->
  first_during f (MkPosts n (next_off s (log_size l1) l2) cur ids) (sums cur (concat (chunks s l2))).
Proof.
  intros Hok Hsz K. induction l2 as [|[s' ds] r IH]; intros l1 n cur ids Hlog Hn.
  - cbn [chunks filter map concat sums first_during]. exact I.
  - assert (log_size (l1 ++ [(s', ds)]) = (log_size l1 + chunk_len ds)%nat) as Hls
      by (rewrite log_size_app; cbn [log_size]; lia).
    destruct (Nat.eqb_spec s' s) as [->|Hs].
    + assert (chunks s ((s, ds) :: r) = ds :: chunks s r) as ->
        by (unfold chunks; cbn [filter fst]; rewrite Nat.eqb_refl; reflexivity).
      cbn [concat next_off]. rewrite Nat.eqb_refl, sums_app.
      assert (Eok : entry_ok (s, ds)) by (rewrite Hlog in Hok; apply Forall_app in Hok; destruct Hok as [_ Hok]; inv Hok; assumption).
      set (lst := last (sums cur ds) cur).
      set (lk := if in_dec Nat.eq_dec s (map fst r) then Some (link_bytes (next_off s (log_size l1 + chunk_len ds) r)) else None).
      assert (Sk : forall t, exists lk' f', skipn (log_size l1) (f t) = chunk_hdr ds ++ payload ds ++ lk' ++ f' /\ length lk' = 8%nat /\ (lk = None \/ lk = Some lk')).
      { intros t. pose proof (K t) as K1. rewrite Hlog in K1. destruct (keeps_at l1 0 s ds r _ K1) as (lk' & f' & Sk & Lk & Hlk).
        exists lk', f'. split; [exact Sk|]. split; [exact Lk|]. unfold lk. destruct (in_dec _ _ _) as [Hin|Hout]; [|auto]. rewrite (Hlk Hin). auto. }
      assert (forall lk', lk = None \/ lk = Some lk' -> first_during f (MkPosts 0 (i64_of_u64 (be64 lk')) lst (sums cur ds)) (sums cur ds ++ sums lst (concat (chunks s r)))) as H.
      { intros lk' Hlk. apply (during_buffered _ _ (sums cur ds) 0 _ _ []); [reflexivity|]. cbn [app].
        unfold lk in Hlk. destruct (in_dec Nat.eq_dec s (map fst r)) as [Hin|Hout].
        - destruct Hlk as [Q|Q]; [discriminate Q|]. assert (lk' = link_bytes (next_off s (log_size l1 + chunk_len ds) r)) as -> by congruence.
          unfold link_bytes. rewrite <- (app_nil_r (put_be64 _)), be64_put by apply u64_of_i64_range.
          rewrite i64_u64.
          + rewrite <- Hls. apply IH; [|reflexivity]. rewrite <- app_assoc. exact Hlog.
          + destruct (next_off_range s r (log_size l1 + chunk_len ds)) as [->|R]; [lia|].
            rewrite Hlog, log_size_app in Hsz. cbn [log_size] in Hsz. lia.
        - rewrite chunks_none by exact Hout. exact I. }
      pose proof Eok as (Hne & _). cbn [snd] in Hne.
      destruct ds as [|d0 ds0]; [congruence|]. cbn [sums app] in H |- *. cbn [first_during]. intros t.
      destruct (next_during f (log_size l1) s (d0 :: ds0) lk (MkPosts n (Z.of_nat (log_size l1)) cur ids) t Sk Eok eq_refl) as (t' & lk' & En & Hlk).
      specialize (H lk' Hlk). cbn [first_during] in H. destruct (H t') as (r' & t2 & H1 & H2). exists r', t2. split; [|exact H2].
      rewrite <- H1. unfold posts_next_during at 1. cbn [r_i r_docids r_nextpos].
      assert ((n =? length ids)%nat = true) as -> by (apply Nat.eqb_eq; auto).
      destruct (Z.eqb_spec (Z.of_nat (log_size l1)) (-1)); [lia|].
      rewrite En. cbn [bind r_i r_docids r_current sums]. fold lst.
      unfold posts_next_during. cbn [r_i r_docids]. cbn [length Nat.eqb bind]. reflexivity.
    + assert (chunks s ((s', ds) :: r) = chunks s r) as ->
        by (unfold chunks; cbn [filter fst]; destruct (Nat.eqb_spec s' s); [congruence|reflexivity]).
      cbn [next_off]. destruct (Nat.eqb_spec s' s); [congruence|].
      rewrite <- Hls. apply IH; [|assumption]. rewrite <- app_assoc. exact Hlog.
Qed.
Lemma get_loop_first_during grow ix now place j : forall ids fuel t ps n back, first_during (posting ix now j) ps ids ->
  (forall t d, In d ids -> docid2doc (live ix (now t)) d = Ok (place d)) ->
  (n <= length back)%nat -> (length back - n <= length ids)%nat -> (length ids < fuel)%nat ->
  get_loop_during grow ix now fuel t true j ps (Some (n, back)) =
    Ok (Some (length back, store n (map place (firstn (length back - n) ids)) back)).
Proof.
  induction ids as [|d ids IH]; intros [|fuel] t ps n back R Pl W X L; cbn [length] in L, X; try lia; cbn [get_loop_during first_during map] in *.
  - cbn [docs_len docs_cap andb]. assert (n = length back) as -> by lia. rewrite Nat.eqb_refl, Nat.sub_diag. reflexivity.
  - cbn [docs_len docs_cap andb]. destruct (Nat.eqb_spec n (length back)) as [->|Ne].
    + rewrite Nat.sub_diag. reflexivity.
    + destruct (R t) as (ps' & t' & E & R'). rewrite E, (Pl t' d) by (left; reflexivity). cbn [bind].
      destruct (place d) as [[p s] e] eqn:Ep. rewrite put_doc_lim by lia. cbn [bind].
      rewrite IH; [|exact R'|intros t2 x Hx; apply Pl; right; exact Hx|rewrite upd_length; lia|rewrite upd_length; lia|lia].
      rewrite upd_length. replace (length back - n)%nat with (S (length back - S n)) by lia.
      cbn [firstn map store length]. rewrite Ep. reflexivity.
Qed.

(** * Mixtures *)
Lemma nth_skip {A} k : forall (l : list A) i, nth_error (skipn k l) i = nth_error l (k + i).
Proof. induction k as [|k IH]; intros [|x l] i; cbn [skipn Nat.add nth_error]; auto. destruct i; reflexivity. Qed.
Lemma mixed_skip S f k : mixed S f -> mixed (fun g' => exists g, S g /\ g' = skipn k g) (skipn k f).
Proof.
  intros [(g & Hg & L) M]. split.
  - exists (skipn k g). split; [eauto|]. rewrite !skipn_length. lia.
  - intros i b E. rewrite nth_skip in E. destruct (M _ _ E) as (h & Hh & Eh). exists (skipn k h). split; [eauto|]. rewrite nth_skip. exact Eh.
Qed.
Lemma mixed_front S f a : mixed S f -> (forall g, S g -> exists r, g = a ++ r) -> exists r, f = a ++ r.
Proof.
  revert S f. induction a as [|x a IH]; intros S f M A; [exists f; reflexivity|].
  destruct M as [(g & Hg & L) M]. destruct (A g Hg) as [r ->]. destruct f as [|y f]; [discriminate L|].
  destruct (M 0%nat y eq_refl) as (h & Hh & Eh). destruct (A h Hh) as [r2 ->]. injection Eh as <-.
  destruct (IH (fun g' => exists g, S g /\ g' = skipn 1 g) f) as [r3 E3].
  - change f with (skipn 1 (x :: f)). apply mixed_skip. split; [eauto|exact M].
  - intros g' (g & Hg' & ->). destruct (A g Hg') as [r4 ->]. exists r4. reflexivity.
  - exists r3. rewrite E3. reflexivity.
Qed.
Lemma keeps_mixed log : forall base (S : bytes -> Prop) f, (forall g, S g -> keeps base log g) -> mixed S f -> keeps base log f.
Proof.
  induction log as [|[s ds] r IH]; intros base S f K M; cbn [keeps]; [exact Logic.I|].
  destruct (mixed_front S f (chunk_hdr ds ++ payload ds) M) as [r1 E1].
  { intros g Hg. destruct (K g Hg) as (lk & f' & -> & _). exists (lk ++ f'). rewrite <- app_assoc. reflexivity. }
  pose proof (mixed_skip S f (length (chunk_hdr ds ++ payload ds)) M) as M1.
  assert (Er : skipn (length (chunk_hdr ds ++ payload ds)) f = r1) by (rewrite E1; apply skipn_app_exact; reflexivity). rewrite Er in M1.
  assert (L1 : (8 <= length r1)%nat).
  { destruct M as [(g & Hg & L) _]. destruct (K g Hg) as (lk & f' & -> & Lk & _). rewrite E1, !app_length in L. rewrite Lk in L. lia. }
  exists (firstn 8 r1), (skipn 8 r1). split; [rewrite firstn_skipn, E1, <- app_assoc; reflexivity|]. split; [rewrite firstn_length; lia|]. split.
  - intros Hin. destruct (mixed_front _ r1 (link_bytes (next_off s (base + chunk_len ds) r)) M1) as [r2 ->].
    + intros g' (g & Hg & ->). destruct (K g Hg) as (lk & f' & -> & Lk & Hlk & _). rewrite app_assoc, skipn_app_exact by reflexivity. rewrite (Hlk Hin). eauto.
    + rewrite firstn_app, link_bytes_length, Nat.sub_diag, firstn_O, app_nil_r. rewrite <- (link_bytes_length (next_off s (base + chunk_len ds) r)). apply firstn_all.
  - apply (IH _ (fun g' => exists g, S g /\ g' = skipn (length (chunk_hdr ds ++ payload ds) + 8) g)).
    + intros g' (g & Hg & ->). destruct (K g Hg) as (lk & f' & -> & Lk & _ & K'). rewrite app_assoc, skipn_add, skipn_app_exact by reflexivity.
      rewrite skipn_app_exact by (symmetry; exact Lk). exact K'.
    + rewrite <- Er, <- skipn_add. apply mixed_skip, M.
Qed.

(** * The chunks there were stay, whatever sessions follow *)
Lemma serve_batch_grown log more : forall y, grown log y -> grown log (serve_batch y more).
Proof. induction more as [|p more IH]; intros y G; cbn [serve_batch fold_left]; [exact G|]. apply IH, serve_grown, G. Qed.
Section A.
  Variables (u : unicode) (c : config) (k m n : nat).
  Hypothesis F : cfg_full c k m n.
  Let O : cfg_ok c k m n := cu_ok _ _ _ _ F.
  Let Hn : N.of_nat n < 65536 := cu_n _ _ _ _ F.
  Let Hfl : (1 <= cf_flush c)%Z := cu_flush _ _ _ _ F.
  Notation disk_inv := (disk_inv u c k m n).
  Definition held_logs (logs : nat -> list entry) (dk : disk) : Prop :=
    forall x ws, open_indexer dk = Ok (x, ws) -> forall j sh, nth_error (x_shards x) j = Some sh -> grown (logs j) sh.

  Lemma session_grown logs docs0 wss0 fn0 fs0 dk docs wss dk' : disk_inv docs0 wss0 fn0 fs0 dk -> session u (open_indexer dk) docs dk' ->
    docs_fit (docs0 ++ docs) -> words_of (word_char u) docs0 wss0 -> words_of (word_char u) docs wss ->
    held_logs logs dk -> held_logs logs dk'.
  Proof.
    intros D S Fit W0 W1 G x2 ws2 Ex2 j sh Ej. pose proof (df_len _ Fit) as FL.
    change (2 ^ 32) with 4294967296 in *. assert (L0 : nlen docs0 < 4294967295) by (unfold nlen in *; rewrite app_length in FL; lia).
    destruct (session_more u c k m n F _ _ _ _ _ docs wss dk' D S Fit W0 W1) as (fn1 & fs1 & D1 & _).
    destruct (open_start u c k m n O Hn Hfl _ _ _ _ _ D L0) as (x & ws & Ex & I).
    destruct (session_inv u c k m n O Hn _ x ws _ _ _ docs wss Ex I Fit W0 W1) as (_ & _ & _ & Last).
    destruct (open_indexer_parts c k m n F dk' x2 ws2 Ex2 (di_cfg _ _ _ _ _ _ _ _ _ _ D1)) as (_ & _ & X3). destruct (for_shards_nth _ _ _ _ X3) as [Lx2 Nx2].
    destruct (Nx2 j sh Ej) as (i2 & p2 & E2 & E3).
    assert (Lj : (j < n)%nat) by (rewrite <- Lx2; eapply nth_len, Ej).
    inversion S as [x' ws' fn dm ids st i Es Ed Est Em Edk]. rewrite Ex in Es. injection Es as <- <-.
    rewrite <- Edk in E2. cbn [k_shards] in E2.
    destruct (cfg_nat _ _ _ _ O) as (En & Esh & Hk & Hm & Hn0).
    destruct (start_workers_good u c k m n ws O (xi_ws _ _ _ _ _ _ _ _ _ _ I)) as (Gw & Lw).
    assert (Lr : length (requests docs) = length docs) by apply map_length.
    assert (Hl' : nlen docs0 + nlen (requests docs) < 4294967295) by (unfold nlen in *; rewrite app_length in FL; lia).
    pose proof (words_of_len _ _ _ W0) as Lw0. pose proof (words_of_len _ _ _ W1) as Lw1.
    assert (Small : small (word_hash u) k m (wss0 ++ wss)).
    { apply Forall_app. split; [eapply words_of_small, W0|eapply words_of_small, W1]. }
    rewrite (xi_cfg _ _ _ _ _ _ _ _ _ _ I) in *. rewrite Last in Est. unfold session_steps, session_start in Est. rewrite En, Esh in Est.
    destruct (run_complete serve_post u k m n Hk Hm Hn0 ltac:(lia) (requests docs) wss (nlen docs0) ws (x_shards x) Gw (xi_shards _ _ _ _ _ _ _ _ _ _ I) Hl'
      (words_of_requests _ _ _ W1) st i Est Em) as (_ & Y).
    rewrite !nth_error_map in E2. destruct (nth_error (s_servers st) j) as [v|] eqn:Ev; [|discriminate]. cbn [option_map] in E2.
    destruct (nth_ex (x_shards x) j) as [s0 Es0]; [rewrite (xi_shards _ _ _ _ _ _ _ _ _ _ I); exact Lj|].
    rewrite (Y j v s0 Ev Es0) in E2. pose proof (G x ws Ex j s0 Es0) as G0.
    destruct (nth_ex (k_shards dk) j) as [f0 E0]; [rewrite (di_shards _ _ _ _ _ _ _ _ _ _ D); exact Lj|].
    destruct (di_closed _ _ _ _ _ _ _ _ _ _ D j _ E0) as (y & log & J & Fl & Sz & Ef).
    assert (s0 = y) as ->.
    { destruct (open_indexer_parts c k m n F dk x ws Ex (di_cfg _ _ _ _ _ _ _ _ _ _ D)) as (_ & _ & X4). destruct (for_shards_nth _ _ _ _ X4) as [_ Nx].
      destruct (Nx j s0 Es0) as (i4 & p4 & E4 & E5). rewrite E0 in E4. rewrite Ef in E4. injection E4 as <- <-.
      rewrite (shard_append_spec y log _ J Fl Sz) in E5. congruence. }
    set (more := posts_for (word_hash u) k m n j (nlen docs0) wss) in *. fold (serve_batch y more) in E2.
    assert (B : bounded (posts_for (word_hash u) k m n j 0 wss0 ++ more)).
    { assert (B : bounded (posts_for (word_hash u) k m n j 0 (wss0 ++ wss))) by (apply posts_bounded; auto; unfold nlen in *; rewrite app_length in *; lia).
      rewrite posts_for_app in B. replace (0 + nlen wss0) with (nlen docs0) in B by (unfold nlen; lia). exact B. }
    destruct (serve_batch_inv more y log _ J B) as [log1 J1]. destruct (flush_ind_spec _ _ _ J1) as (log2 & J2 & Fl2).
    assert (Sz2 : (Z.of_nat (log_size log2) < 9223372036854775808)%Z) by (apply (shard_file_size _ _ _ J2); intros s; apply B).
    unfold shard_close in E2. injection E2 as <- <-. rewrite (shard_append_spec _ log2 _ J2 Fl2 Sz2) in E3.
    assert (sh = flush_ind (serve_batch y more)) as -> by congruence.
    unfold flush_ind. apply flush_ind_grown, serve_batch_grown, G0.
  Qed.
  Lemma since_grown logs docs0 wss0 fn0 fs0 dk news dk' : disk_inv docs0 wss0 fn0 fs0 dk -> since u dk news dk' -> words_of (word_char u) docs0 wss0 ->
    docs_fit (docs0 ++ all_docs news) -> held_logs logs dk -> held_logs logs dk'.
  Proof.
    intros D S W0. induction S as [|news dk1 docs dk2 S IH S1]; intros Fit G; [exact G|].
    rewrite all_docs_cons, app_assoc in Fit. pose proof (IH (fit_app _ _ Fit) G) as G1.
    destruct (words_total u (all_docs news)) as [w1 W1]. destruct (words_total u docs) as [w2 W2].
    destruct (since_inv u c k m n F _ _ _ _ _ _ _ D S W0 w1 (fit_app _ _ Fit) W1) as (fn1 & fs1 & D1 & _).
    eapply (session_grown logs _ _ _ _ dk1 docs w2 dk2 D1 S1 Fit); [apply Forall2_app; assumption|exact W2|exact G1].
  Qed.

  Lemma session_longer b docs0 wss0 fn0 fs0 dk docs dk' : disk_inv docs0 wss0 fn0 fs0 dk -> session u (open_indexer dk) docs dk' ->
    longer b (k_dmd dk) -> longer b (k_dmd dk').
  Proof.
    intros D S L. inversion S as [x ws fn dm ids st i Es Ed Est Em Edk]. cbn [k_dmd].
    destruct (open_indexer_parts c k m n F dk x ws Es (di_cfg _ _ _ _ _ _ _ _ _ _ D)) as (_ & X2 & _).
    apply longer_close. eapply longer_ids; [exact Ed|]. rewrite X2. exact L.
  Qed.
  Lemma since_longer b docs0 wss0 fn0 fs0 dk news dk' : disk_inv docs0 wss0 fn0 fs0 dk -> since u dk news dk' -> words_of (word_char u) docs0 wss0 ->
    docs_fit (docs0 ++ all_docs news) -> longer b (k_dmd dk) -> longer b (k_dmd dk').
  Proof.
    intros D S W0. induction S as [|news dk1 docs dk2 S IH S1]; intros Fit L; [exact L|].
    rewrite all_docs_cons, app_assoc in Fit. pose proof (IH (fit_app _ _ Fit) L) as L1.
    destruct (words_total u (all_docs news)) as [w1 W1].
    destruct (since_inv u c k m n F _ _ _ _ _ _ _ D S W0 w1 (fit_app _ _ Fit) W1) as (fn1 & fs1 & D1 & _).
    eapply session_longer; eauto.
  Qed.

  (** What every moment has of the files [dk]. *)
  Definition kept (b : bytes) (logs : nat -> list entry) (fs : files) : Prop :=
    longer b (w_dmd fs) /\ length (w_shards fs) = n /\
    forall j f, nth_error (w_shards fs) j = Some f -> exists pos, snd f = Some pos /\ keeps 0 (logs j) pos.
  Lemma longer_trans a b f : longer a (Some b) -> longer b f -> longer a f.
  Proof. intros [e E] [e' ->]. assert (b = a ++ e) as -> by congruence. exists (e ++ e'). rewrite app_assoc. reflexivity. Qed.
  Lemma moment_kept b logs docs0 wss0 fn0 fs0 dk fs : disk_inv docs0 wss0 fn0 fs0 dk -> words_of (word_char u) docs0 wss0 ->
    k_dmd dk = Some b -> held_logs logs dk -> moment_after u dk (fun news => docs_fit (docs0 ++ all_docs news)) fs -> kept b logs fs.
  Proof.
    intros D W0 Eb G (news & dk1 & docs & Si & Fit & St).
    destruct (words_total u (all_docs news)) as [w1 W1].
    destruct (since_inv u c k m n F _ _ _ _ _ _ _ D Si W0 w1 Fit W1) as (fn1 & fs1 & D1 & _).
    pose proof (since_grown logs _ _ _ _ _ _ _ D Si W0 Fit G) as G1.
    pose proof (since_longer b _ _ _ _ _ _ _ D Si W0 Fit ltac:(rewrite Eb; apply longer_refl)) as L1.
    inversion St as [x ws fs' Ex Sp Efs]. subst fs'.
    pose proof (di_dmd _ _ _ _ _ _ _ _ _ _ D1) as Em. unfold dmd_file in Em. rewrite Em in L1.
    destruct (append_leaves u c k m n F dk1 docs x ws fs logs Ex (di_cfg _ _ _ _ _ _ _ _ _ _ D1) (G1 x ws Ex) (di_shards _ _ _ _ _ _ _ _ _ _ D1) _ Em Sp) as (L2 & _ & Wl & Wk).
    split; [eapply longer_trans; eauto|]. split; assumption.
  Qed.
  Lemma views_kept b logs (P : files -> Prop) fs : (forall fs', P fs' -> kept b logs fs') -> views P fs -> kept b logs fs.
  Proof.
    intros K ((d & Ed & Md) & (fs1 & P1 & L1) & Mp). split; [|split].
    - destruct (mixed_front _ d b Md) as [r ->].
      + intros g (fs' & P' & E'). destruct (K fs' P') as ([e E] & _). exists e. congruence.
      + exists r. exact Ed.
    - rewrite L1. apply K, P1.
    - intros j f Ej. destruct (Mp j f Ej) as (p & Ep & Mm). exists p. split; [exact Ep|]. eapply keeps_mixed; [|exact Mm].
      intros g (fs' & fl' & P' & E' & Eg). destruct (K fs' P') as (_ & _ & X). destruct (X j fl' E') as (pos & Eq & Kp).
      assert (g = pos) as -> by congruence. exact Kp.
  Qed.

  Lemma open_during sorted x log hist pos si : shard_inv x log (content_of hist) -> flushed x -> (Z.of_nat (log_size log) < 9223372036854775808)%Z ->
    shard_open sorted (iix_bytes (x_ind x)) pos = Ok si -> forall f, (forall t, keeps 0 log (f t)) ->
    forall s, (s < num_slots)%nat -> first_during f (new_posts (nth s (si_heads si) (-1)%Z)) (content_of hist s).
  Proof.
    intros I Hf Hsz Eo f K s Hs. destruct (open_heads sorted _ _ _ Eo) as (t & T & ->). unfold table_of in T. cbn [fst] in T.
    rewrite (closed_table x log hist I Hsz) in T. assert (t = map (fun p => (p_head p, p_total p)) (x_ind x)) as -> by congruence. clear T Eo.
    destruct I as (I1 & I2 & I3 & I4 & I5).
    destruct (nth_error (x_ind x) s) as [p|] eqn:E; [|apply nth_error_None in E; lia].
    rewrite map_map. cbn [fst]. rewrite (nth_map_error _ _ _ _ _ E).
    destruct (I5 s p E) as (_ & H2 & _ & _ & _ & pend & H6 & _ & _ & H9).
    assert (p_posts p = []) as Hp by (apply nth_error_In in E; unfold flushed in Hf; rewrite Forall_forall in Hf; auto).
    assert (pend = []) as ->.
    { rewrite H6 in Hp. pose proof (payload_length_ge pend) as L. rewrite Hp in L. destruct pend; [reflexivity|cbn [length] in L; lia]. }
    rewrite app_nil_r in H9. rewrite <- H9, H2. unfold new_posts.
    apply (log_during log s f I3 Hsz K log [] 0%nat 0 []); reflexivity.
  Qed.
  Lemma logs_during sorted docs0 wss fn0 fs0 dk : disk_inv docs0 wss fn0 fs0 dk ->
    exists logs, held_logs logs dk /\
      forall j iix pos si, (j < n)%nat -> nth_error (k_shards dk) j = Some (iix, pos) -> shard_open sorted iix pos = Ok si -> forall f, (forall t, keeps 0 (logs j) (f t)) ->
        forall s, (s < num_slots)%nat -> first_during f (new_posts (nth s (si_heads si) (-1)%Z)) (content_of (posts_for (word_hash u) k m n j 0 wss) s).
  Proof.
    intros D.
    destruct (finite_choice (fun j log => (forall x ws, open_indexer dk = Ok (x, ws) -> forall sh, nth_error (x_shards x) j = Some sh -> grown log sh) /\
      forall iix pos si, nth_error (k_shards dk) j = Some (iix, pos) -> shard_open sorted iix pos = Ok si -> forall f, (forall t, keeps 0 log (f t)) ->
        forall s, (s < num_slots)%nat -> first_during f (new_posts (nth s (si_heads si) (-1)%Z)) (content_of (posts_for (word_hash u) k m n j 0 wss) s)) n) as [logs Hl]; [|exact []|].
    - intros j Lj. destruct (nth_ex (k_shards dk) j) as [f0 E0]; [rewrite (di_shards _ _ _ _ _ _ _ _ _ _ D); exact Lj|].
      destruct (di_closed _ _ _ _ _ _ _ _ _ _ D j _ E0) as (y & log & J & Fl & Sz & Ef). exists log. split.
      + intros x ws Ex sh Esh. destruct (open_indexer_parts c k m n F dk x ws Ex (di_cfg _ _ _ _ _ _ _ _ _ _ D)) as (_ & _ & X3). destruct (for_shards_nth _ _ _ _ X3) as [_ Nx].
        destruct (Nx j sh Esh) as (i2 & p2 & E2 & E3). rewrite E0, Ef in E2. injection E2 as <- <-.
        rewrite (shard_append_spec y log _ J Fl Sz) in E3. assert (sh = y) as -> by congruence. eapply inv_grown, J.
      + intros iix pos si E1 Eo. rewrite E0, Ef in E1. injection E1 as <- <-. eapply open_during; eauto.
    - exists logs. split.
      + intros x ws Ex j sh Esh. apply (Hl j) with (x := x) (ws := ws); auto.
        destruct (open_indexer_parts c k m n F dk x ws Ex (di_cfg _ _ _ _ _ _ _ _ _ _ D)) as (_ & _ & X3). destruct (for_shards_nth _ _ _ _ X3) as [Lx _]. rewrite <- Lx. eapply nth_len, Esh.
      + intros j iix pos si Lj. apply (Hl j Lj).
  Qed.
  Theorem get_during sorted docs0 wss0 fn0 fs0 dk ix now grow blot fuel back : sorts sorted -> docs_fit docs0 ->
    disk_inv docs0 wss0 fn0 fs0 dk -> words_of (word_char u) docs0 wss0 -> open_index sorted dk = Ok ix ->
    (forall t, views (moment_after u dk (fun news => docs_fit (docs0 ++ all_docs news))) (now t)) ->
    let ids0 := carriers (word_hash u) k m n 0 wss0 (blot mod (N.of_nat n * 65536)) in
    (length back <= length ids0)%nat -> (length docs0 < fuel)%nat ->
    exists ds, query_get_during grow ix now fuel blot (Some (0%nat, back)) = Ok ds /\
      docs_keys ds = map (place_of docs0) (firstn (length back) ids0).
  Proof.
    intros Hs Fit D W0 Eo V ids0 Lb Lf.
    pose proof (di_dmd _ _ _ _ _ _ _ _ _ _ D) as Em. unfold dmd_file in Em.
    destruct (logs_during sorted _ _ _ _ _ D) as (logs & G & R).
    assert (Kp : forall t, kept (render_dmd (zero_fields :: fs0)) logs (now t)).
    { intros t. eapply views_kept; [|apply V]. intros fs' M. eapply moment_kept; eauto. }
    destruct (open_index_ok u c k m n O Hn sorted Hs _ wss0 fn0 fs0 dk D W0 Fit) as (ix' & E & I & _). assert (ix' = ix) as -> by congruence. clear E.
    assert (Fit1 : docs_fit (docs0 ++ all_docs [])) by (change (all_docs []) with (@nil (bytes * doc)); rewrite app_nil_r; exact Fit).
    pose proof (co_n _ _ _ _ O) as Pn. pose proof (shard_small c k m n F blot) as Lsh.
    pose proof (blot_held u c k m n F wss0 blot) as Eh.
    destruct (nth_shard (fun x => x) ix _ n _ I _ Lsh) as [si Es].
    destruct (open_shard c k m n sorted F dk ix _ si Eo (di_cfg _ _ _ _ _ _ _ _ _ _ D) Es) as (iix & pos & N0 & O0).
    assert (Ex : query_get_during grow ix now fuel blot (Some (0%nat, back)) =
      get_loop_during grow ix now fuel 0 true (QueryP.shard_of n blot) (new_posts (nth (QueryP.slot_of n blot) (si_heads si) (-1)%Z)) (Some (0%nat, back))).
    { unfold query_get_during, get_address. assert (u32 (nlen (ix_shards ix)) = N.of_nat n) as ->.
      { unfold u32, nlen. rewrite (io_len _ _ _ _ I). apply N.mod_small. lia. }
      destruct (N.eqb_spec (N.of_nat n) 0); [lia|]. cbn [bind]. fold (QueryP.shard_of n blot). rewrite Es. reflexivity. }
    rewrite Ex. clear Ex.
    pose proof (R _ iix pos si Lsh N0 O0 (posting ix now (QueryP.shard_of n blot))) as R1. clear R.
    assert (R2 : first_during (posting ix now (QueryP.shard_of n blot)) (new_posts (nth (QueryP.slot_of n blot) (si_heads si) (-1)%Z)) ids0).
    { unfold ids0. rewrite <- Eh. unfold History.held. rewrite <- (content_held u c k m n F docs0 wss0 _ _ Fit W0 Lsh (slot_small n blot)). apply R1; [|apply slot_small].
      intros t. destruct (Kp t) as (_ & Wl & Wk). destruct (nth_ex (w_shards (now t)) (QueryP.shard_of n blot)) as [fl Ej]; [rewrite Wl; exact Lsh|].
      destruct (Wk _ _ Ej) as (p & Ep & K). unfold posting. change (ix_shards (live ix (now t))) with (live_shards (ix_shards ix) (w_shards (now t))).
      rewrite (live_nth _ _ _ _ _ Es Ej), Ep. exact K. }
    pose proof (carriers_len (word_hash u) k m n (blot mod (N.of_nat n * 65536)) wss0 0) as Lc. fold ids0 in Lc. pose proof (words_of_len _ _ _ W0) as Lw.
    rewrite (get_loop_first_during grow ix now (place_of docs0) _ ids0); try lia; [|exact R2|].
    - eexists. split; [reflexivity|]. unfold docs_keys, docs_list. rewrite Nat.sub_0_r.
      assert (Lm : length (map (place_of docs0) (firstn (length back) ids0)) = length back) by (rewrite map_length, firstn_length; lia).
      pose proof (store_keys grow (map (place_of docs0) (firstn (length back) ids0)) 0 back) as Sk. rewrite Lm in Sk. apply Sk. lia.
    - intros t d Hd. destruct (carriers_pos _ _ _ _ _ _ _ Hd) as [P1 P2]. rewrite Lw in P2.
      destruct (nth_ex docs0 (N.to_nat (d - 1)) P2) as [p Ep].
      assert (Ep1 : doc_at (docs0 ++ all_docs []) d p) by (unfold doc_at; rewrite nth_error_app1 by exact P2; exact Ep).
      destruct (place_known c k m n F docs0 [] d p P1 P2 Ep1) as [Kn Epl].
      destruct (Kp t) as ([e Ee] & _).
      rewrite <- Epl. apply (proj1 (live_place u c k m n sorted F Hs docs0 wss0 fn0 fs0 dk ix D Eo W0 [] [] dk (since_none u dk) Fit1 (Forall2_nil _) e (now t) d p ltac:(intros b Eb; congruence) P1 Ep1)), Kn.
  Qed.
End A.

(** * Reads at one moment *)
Lemma varint_once f fuel : forall t p n buf,
  match read_varint_at_aux fuel f p n buf with
  | Ok (v, m) => exists t', read_varint_during (fun _ => f) fuel t p n buf = Ok (v, m, t')
  | Err e => read_varint_during (fun _ => f) fuel t p n buf = Err e
  | Panic => read_varint_during (fun _ => f) fuel t p n buf = Panic
  | Loop => read_varint_during (fun _ => f) fuel t p n buf = Loop
  end.
Proof.
  induction fuel as [|fuel IH]; intros t p n buf; cbn [read_varint_at_aux read_varint_during]; [reflexivity|].
  destruct (pread f (p + n) 1) as [b|e| |]; cbn [bind]; auto.
  destruct (match b with c :: _ => c <? 128 | [] => false end); [|apply IH].
  destruct (varint (buf ++ b)) as [v m]. destruct (m <=? 0)%Z; [reflexivity|eauto].
Qed.
Lemma next_once f t p :
  match posts_next p f with
  | Ok (d, p') => exists t', posts_next_during (fun _ => f) t p = Ok (d, p', t')
  | Err e => posts_next_during (fun _ => f) t p = Err e
  | Panic => posts_next_during (fun _ => f) t p = Panic
  | Loop => posts_next_during (fun _ => f) t p = Loop
  end.
Proof.
  unfold posts_next, posts_next_during. destruct (r_i p =? length (r_docids p))%nat; cbn [bind].
  2:{ destruct (nth_error (r_docids p) (r_i p)); [eauto|reflexivity]. }
  destruct (r_nextpos p =? -1)%Z; cbn [bind]; [reflexivity|].
  unfold read_next, read_next_during, read_varint_at. pose proof (varint_once f max_varint_len64 t (r_nextpos p) 0 []) as V.
  destruct (read_varint_at_aux max_varint_len64 f (r_nextpos p) 0 []) as [[v m]|e| |].
  2:{ rewrite V. destruct e; reflexivity. } 2,3: rewrite V; reflexivity.
  destruct V as [t' ->]. cbn [wrap_err bind]. destruct (_ || _); cbn [bind]; [reflexivity|].
  destruct (wrap_err (pread f (r_nextpos p + m) v)) as [buf|e| |]; cbn [bind]; auto.
  destruct (decode_chunk _ _ _ _ _ _) as [[[ids cur] rest]|e| |]; cbn [bind]; auto.
  cbn [r_docids r_i r_nextpos r_current]. destruct (nth_error ids 0); [eauto|reflexivity].
Qed.
Lemma get_loop_once grow ix fs lim j s : nth_error (live_shards (ix_shards ix) (w_shards fs)) j = Some s ->
  forall fuel t ps ds, get_loop_during grow ix (fun _ => fs) fuel t lim j ps ds = get_loop grow (live ix fs) fuel lim (si_file s) ps ds.
Proof.
  intros E. assert (Ep : posting ix (fun _ => fs) j = fun _ => si_file s).
  { unfold posting. change (ix_shards (live ix fs)) with (live_shards (ix_shards ix) (w_shards fs)). rewrite E. reflexivity. }
  induction fuel as [|fuel IH]; intros t ps ds; cbn [get_loop get_loop_during]; [reflexivity|].
  destruct (lim && _); [reflexivity|]. rewrite Ep. pose proof (next_once (si_file s) t ps) as X.
  destruct (posts_next ps (si_file s)) as [[d p']|e| |].
  - destruct X as [t' ->]. destruct (docid2doc (live ix fs) d) as [[[q a] b]|e| |]; cbn [bind]; auto.
    destruct (put_doc grow lim ds q a b); cbn [bind]; auto.
  - rewrite X. destruct e; reflexivity.
  - rewrite X. reflexivity.
  - rewrite X. reflexivity.
Qed.
Lemma live_heads xs : forall files j s, nth_error xs j = Some s ->
  exists s', nth_error (live_shards xs files) j = Some s' /\ si_heads s' = si_heads s /\ si_counts s' = si_counts s.
Proof.
  induction xs as [|x xs IH]; intros [|[a [pos|]] files] [|j] s E; cbn [nth_error live_shards] in *; try discriminate; eauto.
  injection E as <-. eexists. split; [reflexivity|]. split; reflexivity.
Qed.
Theorem get_once grow ix fs fuel blot ds : query_get_during grow ix (fun _ => fs) fuel blot ds = query_get grow (live ix fs) fuel blot ds.
Proof.
  unfold query_get_during, query_get. change (ix_shards (live ix fs)) with (live_shards (ix_shards ix) (w_shards fs)).
  assert (nlen (live_shards (ix_shards ix) (w_shards fs)) = nlen (ix_shards ix)) as -> by (unfold nlen; rewrite live_length; reflexivity).
  destruct (get_address (u32 (nlen (ix_shards ix))) blot) as [[sh sb]|e| |]; cbn [bind]; auto.
  destruct (nth_error (ix_shards ix) (N.to_nat sh)) as [s|] eqn:E.
  - destruct (live_heads (ix_shards ix) (w_shards fs) _ _ E) as (s' & E' & H1 & H2). rewrite E'.
    assert (rs_posts (read_state_for s' (N.to_nat sb)) = rs_posts (read_state_for s (N.to_nat sb))) as -> by (unfold read_state_for, read_state_for_blot_at; cbn [rs_posts]; rewrite H1; reflexivity).
    apply get_loop_once, E'.
  - destruct (nth_error (live_shards (ix_shards ix) (w_shards fs)) (N.to_nat sh)) as [s|] eqn:E'; [|reflexivity].
    exfalso. apply nth_len in E'. rewrite live_length in E'. apply nth_error_None in E. lia.
Qed.
Lemma mixed_one (S : bytes -> Prop) f : S f -> mixed S f.
Proof. intros H. split; [exists f; auto|]. intros i b E. exists f. auto. Qed.
Lemma views_one (P : files -> Prop) fs d : P fs -> w_dmd fs = Some d -> Forall (fun fl : option bytes * option bytes => exists p, snd fl = Some p) (w_shards fs) -> views P fs.
Proof.
  intros H Ed Fs. split; [|split].
  - exists d. split; [exact Ed|]. apply mixed_one. eauto.
  - eauto.
  - intros j fl E. rewrite Forall_forall in Fs. destruct (Fs fl (nth_error_In _ _ E)) as [p Ep]. exists p. split; [exact Ep|]. apply mixed_one. eauto.
Qed.
