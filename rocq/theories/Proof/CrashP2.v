(** Stopping while appending. *)
From Verif Require Import Model.Base Model.Address Model.Varint Model.Utf8 Model.Token Model.Blotter Model.Post Model.Poster Model.Shatter Model.Shard Model.Dmd Model.Fnames Model.Conc Model.Config Model.Json Model.Run Model.Index Model.Query Model.Session Model.Crash.
From Verif Require Import Spec.Text Spec.Fingerprint Spec.Configs Spec.Posting Spec.Postings Spec.Paths Spec.Reading Spec.Querying Spec.History.
From Verif Require Import Proof.Tactics Proof.VarintP Proof.TokenP Proof.BlotterP Proof.ShatterP Proof.IndexP2 Proof.DmdP Proof.FnamesP Proof.FnamesP2 Proof.PosterP Proof.ShardP Proof.ConcP Proof.ConcRun Proof.QueryP Proof.JsonP Proof.ConfigP Proof.SessionP Proof.SessionP2 Proof.JsonP2 Proof.CutP Proof.CrashP Proof.KeepP.
Local Open Scope N_scope.

(** * What holds of every shard as long as posts keep it *)
Section Steps.
  Context {W D P S : Type}.
  Variables (work : W -> N -> D -> result (W * list (list P))) (absorb : S -> P -> S) (Q : nat -> S -> Prop).
  Hypothesis HQ : forall j s p, Q j s -> Q j (absorb s p).
  Definition all_shards (n : nat) (st : state (W := W) (D := D) (P := P) (S := S)) : Prop :=
    length (s_servers st) = n /\ forall j v, nth_error (s_servers st) j = Some v -> Q j (v_shard v).
  Lemma set_shards n st st' j v v' : all_shards n st -> nth_error (s_servers st) j = Some v -> (Q j (v_shard v) -> Q j (v_shard v')) ->
    s_servers st' = upd j v' (s_servers st) -> all_shards n st'.
  Proof.
    intros [L A] E X Es. split; rewrite Es; [rewrite upd_length; exact L|]. intros i w Ei. rewrite nth_error_upd in Ei.
    destruct (Nat.eqb_spec j i) as [<-|Ne]; [|eauto]. rewrite E in Ei. assert (w = v') as -> by congruence. eauto.
  Qed.
  Lemma step_shards n st st' : step work absorb st st' -> all_shards n st -> all_shards n st'.
  Proof.
    intros H A. inversion H; subst; try exact A; (eapply set_shards; [exact A|eassumption| |reflexivity]); cbn [v_shard]; auto.
  Qed.
  Lemma steps_shards n st st' : steps work absorb st st' -> all_shards n st -> all_shards n st'.
  Proof. induction 1; intros A; auto. eapply step_shards; eauto. Qed.
End Steps.

(** * dmd is only ever added to *)
Definition longer (old : bytes) (f : option bytes) : Prop := exists e, f = Some (old ++ e).
Lemma longer_refl old : longer old (Some old).
Proof. exists []. rewrite app_nil_r. reflexivity. Qed.
Lemma longer_append old f w : longer old f -> longer old (file_append f w).
Proof. intros [e ->]. exists (e ++ w). cbn [file_append]. rewrite app_assoc. reflexivity. Qed.
Lemma longer_add old st d : longer old (snd st) -> longer old (snd (fst (adder_add st d))).
Proof. intros L. destruct st as [a f]. unfold adder_add. destruct (_ =? _); cbn [adder_flush fst snd] in *; [apply longer_append|]; exact L. Qed.
Lemma longer_ids old docs : forall fn dm fn' dm' ids, doc_ids fn dm docs = Ok (fn', dm', ids) -> longer old (snd dm) -> longer old (snd dm').
Proof.
  induction docs as [|[cwd d] docs IH]; intros fn dm fn' dm' ids E L; cbn [doc_ids] in E; [congruence|].
  unfold doc2id in E. destruct (add_path cwd fn (d_path d)) as [[fn1 fid]| | |]; try discriminate. cbn [bind] in E.
  destruct (adder_add dm (MkFields fid (d_start d) (d_end d))) as [dm1 did] eqn:Ea. cbn [bind] in E.
  destruct (doc_ids fn1 dm1 docs) as [[[fn2 dm2] ids2]| | |] eqn:E2; try discriminate. cbn [bind] in E.
  assert (dm' = dm2) as -> by congruence. eapply IH; [exact E2|]. pose proof (longer_add old dm (MkFields fid (d_start d) (d_end d)) L) as X. rewrite Ea in X. exact X.
Qed.
Lemma longer_flush old dm f : longer old (snd dm) -> flush_cut dm f -> longer old f.
Proof. intros L [pre post E]. apply longer_append, L. Qed.
Lemma longer_addcut old dm f : longer old (snd dm) -> add_cut dm f -> longer old f.
Proof. intros L [|g _ Hg]; [exact L|]. eapply longer_flush; eauto. Qed.
Lemma longer_closecut old dm f : longer old (snd dm) -> close_cut dm f -> longer old f.
Proof. intros L [|g _ Hg]; [exact L|]. eapply longer_flush; eauto. Qed.
Lemma longer_close old dm : longer old (snd dm) -> longer old (adder_close dm).
Proof. intros L. destruct dm as [a f]. unfold adder_close. destruct (a_buf a); [exact L|]. apply longer_append, L. Qed.
Lemma lookup_longer f e did v : dmd_lookup f did = Ok v -> dmd_lookup (f ++ e) did = Ok v.
Proof.
  unfold dmd_lookup, read_full. intros H. assert (X : forall b, pread f (Z.of_N did * 12) 12 = Ok b -> pread (f ++ e) (Z.of_N did * 12) 12 = Ok b).
  { unfold pread, zlen. intros b. rewrite app_length. destruct (_ <? 0)%Z; [discriminate|].
    change (12 <=? 0)%Z with false. cbn iota. destruct (Z.leb_spec (Z.of_N did * 12 + 12) (Z.of_nat (length f))) as [L|L]; [|discriminate].
    assert ((Z.of_N did * 12 + 12 <=? Z.of_nat (length f + length e))%Z = true) as -> by lia.
    rewrite skipn_app, firstn_app. intros <-. f_equal.
    replace (Z.to_nat 12 - length (skipn (Z.to_nat (Z.of_N did * 12)) f))%nat with 0%nat by (rewrite skipn_length; lia).
    cbn [firstn]. rewrite app_nil_r. reflexivity. }
  destruct (pread f (Z.of_N did * 12) 12) as [b|e1| |]; [| |discriminate|discriminate].
  - rewrite (X b eq_refl). exact H.
  - destruct e1; [destruct (_ <? _)%Z|]; discriminate.
Qed.

(** * The configuration is written over itself *)
Lemma pwrite_same a d r : pwrite (a ++ d ++ r) (length a) d = a ++ d ++ r.
Proof. rewrite <- (Nat.add_0_r (length a)), pwrite_app_r, pwrite_replace by reflexivity. reflexivity. Qed.
Lemma config_same c : config_write (Some (config_write None c)) c = config_write None c.
Proof.
  assert (E : config_write None c = marshal c ++ [10]) by (rewrite write_is; cbn [content]; rewrite skipn_nil; reflexivity).
  rewrite write_is. cbn [content]. rewrite E. f_equal. f_equal. apply skipn_all2. rewrite app_length. cbn [length]. lia.
Qed.
Lemma cfg_cut_same c f : wops_cut [(0%nat, marshal c); (length (marshal c), [10])] (config_write None c) f -> f = config_write None c.
Proof.
  assert (E : config_write None c = marshal c ++ [10]) by (rewrite write_is; cbn [content]; rewrite skipn_nil; reflexivity).
  rewrite E. clear E. generalize (marshal c). intros d W.
  inversion W as [? ?|off d1 d2 ws f0 E1|off d0 ws f0 f' W' E1 E2 E3]; subst; auto.
  - rewrite <- app_assoc. apply (pwrite_same [] d1 (d2 ++ [10])).
  - replace (pwrite (d ++ [10]) 0 d) with (d ++ [10]) in W' by (symmetry; apply (pwrite_same [] d [10])).
    inversion W' as [? ?|off d1 d2 ws f0 E1|off d0 ws f0 f' W'' E1 E2 E3]; subst; auto.
    + destruct d1 as [|b [|? ?]]; cbn [app] in *; [| |discriminate].
      * apply (pwrite_same d [] d2).
      * apply (pwrite_same d [b] d2).
    + inversion W''; subst. apply (pwrite_same d [10] []).
Qed.

(** * Shards *)
Lemma shards_at_nth {A} P (xs : list A) : forall old new, shards_at P xs old new -> length new = length xs /\
  forall j x o f, nth_error xs j = Some x -> nth_error old j = Some o -> nth_error new j = Some f -> P x (fst o) f.
Proof.
  induction xs as [|x xs IH]; intros [|o old] [|f new] H; cbn [shards_at] in H; try contradiction.
  - split; [reflexivity|]. intros [|j]; discriminate.
  - destruct H as [H1 H2]. destruct (IH _ _ H2) as [L X]. split; [cbn [length]; congruence|]. intros [|j] y p g E1 E2 E3; cbn [nth_error] in *; [|eauto].
    congruence.
Qed.
Lemma for_shards_nth {A} (f : bytes -> bytes -> result A) files : forall n ys, for_shards f n files = Ok ys -> length ys = n /\
  forall j y, nth_error ys j = Some y -> exists iix pos, nth_error files j = Some (iix, pos) /\ f iix pos = Ok y.
Proof.
  induction files as [|[iix pos] files IH]; intros [|n] ys E; cbn [for_shards] in E; try discriminate.
  - assert (ys = []) as -> by congruence. split; [reflexivity|]. intros [|j]; discriminate.
  - assert (ys = []) as -> by congruence. split; [reflexivity|]. intros [|j]; discriminate.
  - destruct (f iix pos) as [y| | |] eqn:Ey; try discriminate. cbn [bind] in E.
    destruct (for_shards f n files) as [l| | |] eqn:El; try discriminate. cbn [bind] in E. assert (ys = y :: l) as -> by congruence.
    destruct (IH n l El) as [L X]. split; [cbn [length]; congruence|]. intros [|j] z Ez; cbn [nth_error] in *; [|eauto].
    assert (z = y) as -> by congruence. eauto.
Qed.
Lemma for_files_spec {A} (f : bytes -> bytes -> result A) (P : nat -> A -> Prop) files : forall b n,
  length files = n -> (forall j fl, nth_error files j = Some fl -> exists iix pos y, fl = (Some iix, Some pos) /\ f iix pos = Ok y /\ P (b + j)%nat y) ->
  exists ys, for_files f n files = Ok ys /\ length ys = n /\ forall j y, nth_error ys j = Some y -> P (b + j)%nat y.
Proof.
  induction files as [|fl files IH]; intros b n L X; cbn [length] in L; subst n; cbn [for_files].
  - exists []. split; [reflexivity|]. split; [reflexivity|]. intros [|j] y E; discriminate.
  - destruct (X 0%nat fl eq_refl) as (iix & pos & y & -> & Ey & Py). rewrite Ey. cbn [bind].
    destruct (IH (S b) (length files) eq_refl) as (ys & E & Ly & Z).
    { intros j fl Ej. destruct (X (S j) fl Ej) as (i & p & z & Ef & Ez & Pz). exists i, p, z. split; [exact Ef|]. split; [exact Ez|].
      replace (S b + j)%nat with (b + S j)%nat by lia. exact Pz. }
    rewrite E. cbn [bind]. exists (y :: ys). split; [reflexivity|]. split; [cbn [length]; lia|].
    intros [|j] z Ej; cbn [nth_error] in Ej.
    + assert (z = y) as -> by congruence. exact Py.
    + replace (b + S j)%nat with (S b + j)%nat by lia. eauto.
Qed.
(** Opening the old table with a posting file that has been added to. *)
Lemma open_keeps sorted x log hist pos : shard_inv x log (content_of hist) -> flushed x -> (Z.of_nat (log_size log) < 9223372036854775808)%Z ->
  keeps 0 log pos ->
  exists si, shard_open sorted (iix_bytes (x_ind x)) pos = Ok si /\ si_file si = pos /\
    forall s, (s < num_slots)%nat -> reads_first pos (new_posts (nth s (si_heads si) (-1)%Z)) (content_of hist s).
Proof.
  intros I Hf Hsz K. pose proof (shard_inv_table_ok _ _ _ I Hsz) as T. destruct I as (I1 & I2 & I3 & I4 & I5).
  pose proof (read_table_spec (x_ind x) [] T) as R. rewrite app_nil_r, I1 in R.
  unfold shard_open. rewrite R. cbn [bind]. eexists. split; [reflexivity|]. cbn [si_heads si_file]. split; [reflexivity|]. intros s Hs.
  destruct (nth_error (x_ind x) s) as [p|] eqn:E; [|apply nth_error_None in E; lia].
  rewrite map_map. cbn [fst]. rewrite (nth_map_error _ _ _ _ _ E).
  destruct (I5 s p E) as (_ & H2 & _ & _ & _ & pend & H6 & _ & _ & H9).
  assert (p_posts p = []) as Hp by (apply nth_error_In in E; unfold flushed in Hf; rewrite Forall_forall in Hf; auto).
  assert (pend = []) as ->.
  { rewrite H6 in Hp. pose proof (payload_length_ge pend) as L. rewrite Hp in L. destruct pend; [reflexivity|cbn [length] in L; lia]. }
  rewrite app_nil_r in H9. rewrite <- H9, H2. unfold new_posts.
  apply (first_log log s pos I3 Hsz K log [] 0%nat 0 []); reflexivity.
Qed.

Section Get.
  Variables (grow : nat -> nat) (ix : index) (place : N -> bytes * N * N).
  Lemma get_loop_first f : forall ids fuel ps n back, reads_first f ps ids -> (forall d, In d ids -> docid2doc ix d = Ok (place d)) ->
    (n <= length back)%nat -> (length back - n <= length ids)%nat -> (length ids < fuel)%nat ->
    get_loop grow ix fuel true f ps (Some (n, back)) =
      Ok (Some (length back, store n (map place (firstn (length back - n) ids)) back)).
  Proof.
    induction ids as [|d ids IH]; intros [|fuel] ps n back R Pl W X L; cbn [length] in L, X; try lia; cbn [get_loop reads_first map] in *.
    - cbn [docs_len docs_cap andb]. assert (n = length back) as -> by lia. rewrite Nat.eqb_refl, Nat.sub_diag. reflexivity.
    - cbn [docs_len docs_cap andb]. destruct (Nat.eqb_spec n (length back)) as [->|Ne].
      + rewrite Nat.sub_diag. reflexivity.
      + destruct R as (ps' & E & R). rewrite E, (Pl d) by (left; reflexivity). cbn [bind].
        destruct (place d) as [[p s] e] eqn:Ep. rewrite put_doc_lim by lia. cbn [bind].
        rewrite IH; [|exact R|intros x Hx; apply Pl; right; exact Hx|rewrite upd_length; lia|rewrite upd_length; lia|lia].
        rewrite upd_length. replace (length back - n)%nat with (S (length back - S n)) by lia.
        cbn [firstn map store length]. rewrite Ep. reflexivity.
  Qed.
End Get.

Lemma finite_choice {A} (P : nat -> A -> Prop) n : (forall j, (j < n)%nat -> exists a, P j a) -> A -> exists f, forall j, (j < n)%nat -> P j (f j).
Proof.
  intros X d. induction n as [|n IH]; [exists (fun _ => d); intros; lia|]. destruct IH as [f Hf]; [intros j L; apply X; lia|].
  destruct (X n ltac:(lia)) as [a Ha]. exists (fun j => if (j =? n)%nat then a else f j). intros j L.
  destruct (Nat.eqb_spec j n) as [->|Ne]; [exact Ha|apply Hf; lia].
Qed.
Section A.
  Variables (u : unicode) (c : config) (k m n : nat).
  Hypothesis F : cfg_full c k m n.
  Hypothesis V : cfg_values c.
  Let O : cfg_ok c k m n := cu_ok _ _ _ _ F.
  Let Hn : N.of_nat n < 65536 := cu_n _ _ _ _ F.
  Let Hfl : (1 <= cf_flush c)%Z := cu_flush _ _ _ _ F.

  Lemma open_index_parts sorted dk ix : open_index sorted dk = Ok ix -> k_cfg dk = Some c ->
    k_dmd dk = Some (ix_dmd ix) /\ read_some read_fnames (k_fnames dk) = Ok (ix_fnames ix).
  Proof.
    unfold open_index, read_config. intros E Ec. rewrite Ec, (check_ok c k m n O Hn) in E. cbn [bind] in E.
    destruct (k_dmd dk) as [dm|]; cbn [read_some bind] in E; [|discriminate].
    destruct (read_some read_fnames (k_fnames dk)) as [fn| | |]; cbn [bind] in E; try discriminate.
    destruct (_ <? 0)%Z; [discriminate|]. destruct (for_shards _ _ _); cbn [bind] in E; try discriminate.
    injection E as <-. auto.
  Qed.
  Lemma open_indexer_parts dk x ws : open_indexer dk = Ok (x, ws) -> k_cfg dk = Some c ->
    x_cfg x = c /\ snd (x_dmds x) = k_dmd dk /\ for_shards shard_append n (k_shards dk) = Ok (x_shards x).
  Proof.
    unfold open_indexer, read_config. intros E Ec. rewrite Ec, (check_ok c k m n O Hn) in E. cbn [bind] in E.
    destruct (_ <? 0)%Z; [discriminate|]. rewrite (co_shards _ _ _ _ O), Nat2Z.id in E.
    destruct (new_adder _ _); cbn [bind] in E; try discriminate.
    destruct (read_some read_fnames (k_fnames dk)) as [fn| | |]; cbn [bind] in E; try discriminate.
    destruct (token_from_config _); cbn [bind] in E; try discriminate.
    destruct (for_shards shard_append n (k_shards dk)) as [xs| | |]; cbn [bind] in E; try discriminate.
    destruct (start_workers c); cbn [bind] in E; try discriminate. injection E as <- _. auto.
  Qed.

  (** What a stopped append session leaves of dmd, the configuration and the shards. *)
  Lemma append_leaves dk docs x ws fs (logs : nat -> list entry) : open_indexer dk = Ok (x, ws) -> k_cfg dk = Some c ->
    (forall j sh, nth_error (x_shards x) j = Some sh -> grown (logs j) sh) -> length (k_shards dk) = n ->
    forall dm0, k_dmd dk = Some dm0 -> Crash.stopped u x ws (files_of dk) docs fs ->
    longer dm0 (w_dmd fs) /\ w_cfg fs = Some (config_write None c) /\ length (w_shards fs) = n /\
    forall j f, nth_error (w_shards fs) j = Some f -> exists pos, snd f = Some pos /\ keeps 0 (logs j) pos.
  Proof.
    intros Ex Ec G Ls dm0 Ed St. destruct (open_indexer_parts dk x ws Ex Ec) as (X1 & X2 & X3).
    destruct (for_shards_nth _ _ _ _ X3) as [Lx _].
    assert (Ld : longer dm0 (snd (x_dmds x))) by (rewrite X2, Ed; apply longer_refl).
    assert (Wc : w_cfg (files_of dk) = Some (config_write None c)) by (unfold files_of; cbn [w_cfg]; rewrite Ec; reflexivity).
    assert (Wl : length (w_shards (files_of dk)) = n) by (unfold files_of; cbn [w_shards]; rewrite map_length; exact Ls).
    assert (Sv : forall st, session_steps u (x_cfg x) (session_start (adder_last (fst (x_dmds x))) ws (x_shards x) (requests docs)) st ->
      all_shards (fun j => grown (logs j)) n st).
    { intros st Hst. eapply (steps_shards _ _ (fun j => grown (logs j))); [|exact Hst|].
      - intros j s p Gs. apply serve_grown, Gs.
      - unfold session_start, init. split; cbn [s_servers]; [rewrite map_length; exact Lx|].
        intros j v Ev. rewrite nth_error_map in Ev. destruct (nth_error (x_shards x) j) as [sh|] eqn:Ej; [|discriminate].
        cbn [option_map] in Ev. assert (v = MkServer VRecv sh false) as -> by congruence. cbn [v_shard]. eauto. }
    assert (Oldj : forall A P (xs : list A) sh, shards_at P xs (w_shards (files_of dk)) sh -> length xs = n -> length sh = n /\
      forall j f, nth_error sh j = Some f -> exists y iix, nth_error xs j = Some y /\ P y iix f).
    { intros A P xs sh S Lxs. destruct (shards_at_nth P xs _ _ S) as [L1 N1]. split; [congruence|]. intros j f Ej.
      pose proof (nth_len _ _ _ Ej) as Lj. destruct (nth_ex xs j) as [y Ey]; [congruence|]. destruct (nth_ex (w_shards (files_of dk)) j) as [o Eo]; [rewrite Wl; congruence|].
      exists y, (fst o). eauto. }
    inversion St as [st done rest req fn dm ids f sh H1 H2 H3 H4 H5 H6 Efs|st fn dm ids fs1 H1 H2 H3 H4 Efs].
    - destruct (Sv st H1) as [L1 G1]. destruct (Oldj _ _ _ _ H6 L1) as [L2 N2]. cbn [w_dmd w_cfg w_shards].
      pose proof (longer_ids dm0 done _ _ _ _ _ H4 Ld) as Ldm.
      split; [|split; [exact Wc|split; [exact L2|]]].
      + destruct rest as [|r0 rest]; [rewrite H5; exact Ldm|]. destruct req; [rewrite H5; exact Ldm|]. eapply longer_addcut; eauto.
      + intros j fl Ej. destruct (N2 j fl Ej) as (v & iix & Ev & S). pose proof (G1 j v Ev) as Gv. inversion S as [Es|p ps pos Eb W Es]; cbn [snd].
        * eexists. split; [reflexivity|]. apply grown_keeps, Gv.
        * eexists. split; [reflexivity|]. eapply cut_keeps; [exact W|apply serve_grown, Gv|apply grown_keeps, Gv].
    - subst fs1. pose proof (longer_ids dm0 docs _ _ _ _ _ H3 Ld) as Ldm. destruct (Sv st H1) as [L1 G1].
      assert (Lv : length (map v_shard (s_servers st)) = n) by (rewrite map_length; exact L1).
      assert (G2 : forall j y, nth_error (map v_shard (s_servers st)) j = Some y -> grown (logs j) y).
      { intros j y Ej. rewrite nth_error_map in Ej. destruct (nth_error (s_servers st) j) as [v|] eqn:Ev; [|discriminate].
        cbn [option_map] in Ej. assert (y = v_shard v) as -> by congruence. eauto. }
      assert (Still : forall sh, shards_at (fun x iix p => p = (iix, Some (x_file x))) (map v_shard (s_servers st)) (w_shards (files_of dk)) sh ->
        length sh = n /\ forall j f, nth_error sh j = Some f -> exists pos, snd f = Some pos /\ keeps 0 (logs j) pos).
      { intros sh S. destruct (Oldj _ _ _ _ S Lv) as [L2 N2]. split; [exact L2|]. intros j fl Ej. destruct (N2 j fl Ej) as (y & iix & Ey & ->).
        eexists. split; [reflexivity|]. apply grown_keeps. eauto. }
      inversion H4 as [f sh W S E|pre post sh W S E|f sh W S E|sh S E]; rewrite ?Wc in *; rewrite ?X1 in *; cbn [w_cfg w_dmd w_shards];
        rewrite ?config_same.
      + destruct (Still sh S) as [Y1 Y2]. rewrite (cfg_cut_same c f W). auto.
      + destruct (Still sh S) as [Y1 Y2]. auto.
      + destruct (Still sh S) as [Y1 Y2]. split; [|auto]. eapply longer_closecut; eauto.
      + split; [apply longer_close, Ldm|]. split; [reflexivity|]. destruct (Oldj _ _ _ _ S Lv) as [L2 N2]. split; [exact L2|].
        intros j fl Ej. destruct (N2 j fl Ej) as (y & iix & Ey & C). pose proof (G2 j y Ey) as Gy. inversion C as [pos W Es|pre post W Es]; cbn [snd].
        * eexists. split; [reflexivity|]. eapply cut_keeps; [exact W|apply flush_ind_grown, Gy|apply grown_keeps, Gy].
        * eexists. split; [reflexivity|]. apply grown_keeps. apply flush_ind_grown, Gy.
  Qed.

  (** While the tables and the file names are as they were, the documents of the earlier
      sessions can be read. *)
  Theorem append_stopped_reads sorted ss dk wss docs fs dirs : sorts sorted -> history u c ss dk -> docs_fit (all_docs ss) ->
    words_of (word_char u) (all_docs ss) wss -> append_stopped u dk docs fs -> dirs (cf_root c) = fs ->
    w_fnames fs = k_fnames dk -> map fst (w_shards fs) = map (fun p => Some (fst p)) (k_shards dk) ->
    exists ix, open_files sorted dirs (cf_root c) = Ok ix /\
    forall grow blot fuel back,
      let ids := carriers (word_hash u) k m n 0 wss (blot mod (N.of_nat n * 65536)) in
      (length back <= length ids)%nat -> (length (all_docs ss) < fuel)%nat ->
      exists ds, query_get grow ix fuel blot (Some (0%nat, back)) = Ok ds /\
        docs_keys ds = map (place_of (all_docs ss)) (firstn (length back) ids).
  Proof.
    intros Hs Hi Fit Ww Ap Ed En Et. destruct (history_inv u c k m n O Hn Hfl ss dk Hi Fit wss Ww) as (fn & fs0 & D).
    destruct (open_index_ok u c k m n O Hn sorted Hs _ wss fn fs0 dk D Ww Fit) as (ix0 & E0 & I0 & _).
    pose proof (di_cfg _ _ _ _ _ _ _ _ _ _ D) as Ec. destruct (open_index_parts sorted dk ix0 E0 Ec) as [P1 P2].
    destruct Ap as [x ws fs' Ex St].
    pose proof (di_shards _ _ _ _ _ _ _ _ _ _ D) as Ls.
    (* the log of each shard *)
    assert (Sh : exists logs, (forall j sh, nth_error (x_shards x) j = Some sh -> grown (logs j) sh) /\
      forall j iix pos0, nth_error (k_shards dk) j = Some (iix, pos0) -> forall pos, keeps 0 (logs j) pos ->
        exists si, shard_open sorted iix pos = Ok si /\ si_file si = pos /\
          forall s, (s < num_slots)%nat -> reads_first pos (new_posts (nth s (si_heads si) (-1)%Z)) (content_of (posts_for (word_hash u) k m n j 0 wss) s)).
    { destruct (open_indexer_parts dk x ws Ex Ec) as (_ & _ & X3). destruct (for_shards_nth _ _ _ _ X3) as [Lx Nx].
      assert (Cl : forall j, exists log, (forall sh, nth_error (x_shards x) j = Some sh -> grown log sh) /\
        forall iix pos0, nth_error (k_shards dk) j = Some (iix, pos0) -> forall pos, keeps 0 log pos ->
          exists si, shard_open sorted iix pos = Ok si /\ si_file si = pos /\
          forall s, (s < num_slots)%nat -> reads_first pos (new_posts (nth s (si_heads si) (-1)%Z)) (content_of (posts_for (word_hash u) k m n j 0 wss) s)).
      { intros j. destruct (nth_error (k_shards dk) j) as [[iix pos0]|] eqn:Ej.
        - destruct (di_closed _ _ _ _ _ _ _ _ _ _ D j _ Ej) as (y & log & J & Fl & Sz & Ef).
          assert (iix = iix_bytes (x_ind y)) as -> by congruence. assert (pos0 = x_file y) as -> by congruence.
          exists log. split.
          + intros sh Esh. destruct (Nx j sh Esh) as (i2 & p2 & E2 & E3). rewrite Ej in E2. injection E2 as <- <-.
            rewrite (shard_append_spec y log _ J Fl Sz) in E3. assert (sh = y) as -> by congruence. eapply inv_grown, J.
          + intros i2 p2 E2 pos K. injection E2 as <- _. eapply open_keeps; eauto.
        - exists []. split; [|discriminate]. intros sh Esh. destruct (Nx j sh Esh) as (i2 & p2 & E2 & _). congruence. }
      destruct (finite_choice (fun j log => (forall sh, nth_error (x_shards x) j = Some sh -> grown log sh) /\
        forall iix pos0, nth_error (k_shards dk) j = Some (iix, pos0) -> forall pos, keeps 0 log pos ->
          exists si, shard_open sorted iix pos = Ok si /\ si_file si = pos /\
          forall s, (s < num_slots)%nat -> reads_first pos (new_posts (nth s (si_heads si) (-1)%Z)) (content_of (posts_for (word_hash u) k m n j 0 wss) s)) n)
        as [logs Hl]; [intros j _; apply Cl|exact []|]. exists logs. split.
      - intros j sh Ej. apply Hl; [|exact Ej]. rewrite <- Lx. eapply nth_len, Ej.
      - intros j iix pos0 Ej. apply (Hl j) with (pos0 := pos0); [|exact Ej]. rewrite <- Ls. eapply nth_len, Ej. }
    destruct Sh as (logs & G & Op).
    destruct (append_leaves dk docs x ws fs' logs Ex Ec G Ls (ix_dmd ix0) P1 St) as ((e & Ew) & Wc & Wl & Wk).
    destruct (for_files_spec (shard_open sorted) (fun j si => forall s, (s < num_slots)%nat ->
      reads_first (si_file si) (new_posts (nth s (si_heads si) (-1)%Z)) (content_of (posts_for (word_hash u) k m n j 0 wss) s)) (w_shards fs') 0 n Wl) as (ys & Ey & Ly & Ny).
    { intros j fl Ej. destruct (Wk j fl Ej) as (pos & Ep & K).
      assert (Lj : (j < n)%nat) by (rewrite <- Wl; eapply nth_len, Ej). destruct (nth_ex (k_shards dk) j) as [[iix pos0] Ei]; [congruence|].
      assert (Ef : fst fl = Some iix).
      { assert (X : nth_error (map fst (w_shards fs')) j = nth_error (map (fun p => Some (fst p)) (k_shards dk)) j) by congruence.
        rewrite !nth_error_map, Ej, Ei in X. cbn [option_map fst] in X. congruence. }
      destruct (Op j iix pos0 Ei pos K) as (si & Es & Ef2 & Rd). exists iix, pos, si. split; [destruct fl; cbn [fst snd] in *; congruence|].
      split; [exact Es|]. cbn [Nat.add]. rewrite Ef2. exact Rd. }
    exists (MkIndex c (ix_dmd ix0 ++ e) (ix_fnames ix0) ys). split.
    { unfold open_files. rewrite Ed, Wc, (cfg_back c k m n F V). cbn [bind]. rewrite Ed, Ew. cbn [read_some bind]. rewrite En, P2. cbn [bind].
      rewrite (co_shards _ _ _ _ O). assert ((Z.of_nat n <? 0)%Z = false) as -> by lia. rewrite Nat2Z.id, Ey. reflexivity. }
    intros grow blot fuel back ids Lb Lf. pose proof (co_n _ _ _ _ O) as Pn.
    assert (Lsh : (QueryP.shard_of n blot < n)%nat) by (unfold QueryP.shard_of; assert (X : blot mod N.of_nat n < N.of_nat n) by (apply N.mod_lt; lia); clear - X; lia).
    assert (Lsl : (QueryP.slot_of n blot < num_slots)%nat) by (unfold QueryP.slot_of, num_slots; assert (X : blot / N.of_nat n mod 65536 < 65536) by (apply N.mod_lt; lia); clear - X; lia).
    destruct (nth_ex ys (QueryP.shard_of n blot)) as [si Esi]; [congruence|].
    pose proof (Ny _ si Esi _ Lsl) as Rd. cbn [Nat.add] in Rd.
    assert (Eids : content_of (posts_for (word_hash u) k m n (QueryP.shard_of n blot) 0 wss) (QueryP.slot_of n blot) = ids).
    { unfold content_of. pose proof (df_len _ Fit) as L. change (2 ^ 32) with 4294967296 in L. pose proof (words_of_len _ _ _ Ww) as Lw.
      rewrite posts_carriers; [|exact Pn|exact Lsh|exact Lsl|unfold nlen in *; lia|eapply words_of_small, Ww]. unfold ids. rewrite blot_slot by exact Pn. reflexivity. }
    rewrite Eids in Rd.
    assert (Eq : query_get grow (MkIndex c (ix_dmd ix0 ++ e) (ix_fnames ix0) ys) fuel blot (Some (0%nat, back)) =
      get_loop grow (MkIndex c (ix_dmd ix0 ++ e) (ix_fnames ix0) ys) fuel true (si_file si) (new_posts (nth (QueryP.slot_of n blot) (si_heads si) (-1)%Z)) (Some (0%nat, back))).
    { unfold query_get, get_address. cbn [ix_shards]. assert (u32 (nlen ys) = N.of_nat n) as -> by (unfold u32, nlen; rewrite Ly; apply N.mod_small; lia).
      destruct (N.eqb_spec (N.of_nat n) 0); [lia|]. cbn [bind]. fold (QueryP.shard_of n blot). rewrite Esi. reflexivity. }
    rewrite Eq. pose proof (carriers_len (word_hash u) k m n (blot mod (N.of_nat n * 65536)) wss 0) as Lc. fold ids in Lc.
    pose proof (words_of_len _ _ _ Ww) as Lw.
    rewrite (get_loop_first grow _ (place_of (all_docs ss)) (si_file si) ids) by
      (exact Rd || lia || (intros d Hd; assert (Pd : docid2doc ix0 d = Ok (place_of (all_docs ss) d)) by
        (apply (io_place _ _ _ _ I0 _ _ d Lsh Lsl); unfold ids in Hd; rewrite <- (blot_slot n Pn blot) in Hd; exact Hd);
        unfold docid2doc in Pd |- *; cbn [ix_dmd ix_fnames]; destruct (dmd_lookup (ix_dmd ix0) d) as [v| | |] eqn:El; try discriminate;
        rewrite (lookup_longer _ e _ _ El); exact Pd)).
    eexists. split; [reflexivity|]. unfold docs_keys, docs_list. rewrite Nat.sub_0_r.
    assert (Lm : length (map (place_of (all_docs ss)) (firstn (length back) ids)) = length back) by (rewrite map_length, firstn_length; lia).
    pose proof (store_keys grow (map (place_of (all_docs ss)) (firstn (length back) ids)) 0 back) as Sk. rewrite Lm in Sk. apply Sk. lia.
  Qed.

  (** Stopping right after the tables have been truncated. *)
  Lemma no_table pos : (forall sorted, fails (shard_open sorted [] pos)) /\ fails (shard_append [] pos).
  Proof.
    clear. assert (E : exists k, num_slots = S k) by (exists (Nat.pred num_slots); unfold num_slots; lia). destruct E as [k E].
    split; [intros sorted; unfold shard_open|unfold shard_append]; rewrite E; eexists; reflexivity.
  Qed.
  Lemma no_tables {A} (f : bytes -> bytes -> result A) xs : xs <> [] -> (forall pos, fails (f [] pos)) ->
    fails (for_files f (length xs) (map (fun x => (Some [], Some (x_file (flush_ind x)))) xs)).
  Proof.
    clear. intros Nx E. destruct xs as [|x xs]; [contradiction|]. cbn [length map for_files]. destruct (E (x_file (flush_ind x))) as [e ->]. exists e. reflexivity.
  Qed.
  Lemma at_tables xs : forall old, length old = length xs ->
    shards_at closing xs old (map (fun x => (Some [], Some (x_file (flush_ind x)))) xs).
  Proof.
    clear. induction xs as [|x xs IH]; intros [|o old] L; cbn [length] in L; try discriminate; cbn [map shards_at]; [exact I|].
    split; [|apply IH; congruence]. eapply (closing_table x (fst o) [] _). reflexivity.
  Qed.
  Theorem append_stopped_fails ss dk docs : history u c ss dk -> docs_fit (all_docs ss ++ docs) -> (0 < cf_numshatters c)%Z ->
    exists fs, append_stopped u dk docs fs /\ forall sorted dirs, dirs (cf_root c) = fs ->
      fails (open_files sorted dirs (cf_root c)) /\ fails (open_indexer_files dirs (cf_root c)).
  Proof.
    intros Hi Fit Hsh. assert (Fit0 : docs_fit (all_docs ss)) by (eapply fit_app, Fit).
    destruct (words_total u (all_docs ss)) as [w0 W0]. destruct (words_total u docs) as [w1 W1].
    destruct (history_inv u c k m n O Hn Hfl ss dk Hi Fit0 w0 W0) as (fn0 & fs0 & D).
    pose proof (df_len _ Fit0) as L0. pose proof (df_len _ Fit) as L1. change (2 ^ 32) with 4294967296 in L0, L1.
    destruct (open_start u c k m n O Hn Hfl _ _ _ _ _ D ltac:(lia)) as (x & ws & E & I).
    destruct (session_inv u c k m n O Hn _ x ws _ _ _ docs w1 E I Fit W0 W1) as (A & _ & (fn & dm & Ed) & La).
    pose proof (xi_cfg _ _ _ _ _ _ _ _ _ _ I) as Xc.
    destruct (completes u c k m n ws (nlen (all_docs ss)) (requests docs) (x_shards x) O) as (st & St & Fi); auto.
    { change (2 ^ 32) with 4294967296. clear - Hn. lia. } { apply (xi_ws _ _ _ _ _ _ _ _ _ _ I). }
    { change (2 ^ 32) with 4294967296. unfold requests, nlen in *. rewrite map_length. rewrite app_length in L1. clear - L1. lia. }
    { apply (xi_shards _ _ _ _ _ _ _ _ _ _ I). }
    destruct Fi as (_ & Em & _). rewrite <- La, <- Xc in St.
    pose proof (Session u _ _ _ _ _ _ _ _ _ E Ed St Em) as Ss. destruct (A _ Ss) as (fn' & fs' & D').
    pose proof (di_shards _ _ _ _ _ _ _ _ _ _ D') as L. cbn [k_shards] in L. rewrite map_length in L.
    set (xs := map v_shard (s_servers st)) in *.
    assert (Nx : xs <> []) by (pose proof (co_n _ _ _ _ O) as Pn; intros Z; rewrite Z in L; cbn [length] in L; clear - L Pn; lia).
    assert (Wl : length (w_shards (files_of dk)) = length xs).
    { unfold files_of. cbn [w_shards]. rewrite map_length, (di_shards _ _ _ _ _ _ _ _ _ _ D). symmetry. exact L. }
    assert (Wc : w_cfg (files_of dk) = Some (config_write None c)).
    { unfold files_of. cbn [w_cfg]. rewrite (di_cfg _ _ _ _ _ _ _ _ _ _ D). reflexivity. }
    eexists. split.
    - eapply append_later; [exact E|]. eapply stopped_closing; [exact St|exact Em|exact Ed|]. apply close_shards. apply at_tables. exact Wl.
    - intros sorted dirs Edr. apply (open_fails c k m n F sorted dirs _ Edr); cbn [w_cfg w_fnames w_shards]; rewrite ?Wc, ?Xc, ?config_same.
      + intros f Ef. right. assert (f = config_write None c) as -> by congruence. apply (cfg_back c k m n F V).
      + intros _. split; [|rewrite <- L; split; apply no_tables; auto; intros; apply no_table].
        intros f Ef. left. pose proof (di_fnames _ _ _ _ _ _ _ _ _ _ D') as E1. cbn [k_fnames] in E1. assert (f = fn_write fn') as -> by congruence.
        destruct (reload_spec fn' (di_wf _ _ _ _ _ _ _ _ _ _ D')) as (e & Ee & _). eauto.
  Qed.

  (** Right after opening nothing has changed. *)
  Lemma append_file iix pos x : shard_append iix pos = Ok x -> x_file x = pos.
  Proof.
    clear. unfold shard_append. destruct (read_iix num_slots iix); cbn [bind]; try discriminate. destruct (read_links _ pos); cbn [bind]; try discriminate.
    intros E. injection E as <-. reflexivity.
  Qed.
  Lemma started_files (f : bytes -> bytes -> result shard) (Hf : forall iix pos x, f iix pos = Ok x -> x_file x = pos) files : forall xs,
    for_shards f (length files) files = Ok xs ->
    shards_at serving (map (fun s => MkServer VRecv s false) xs) (map (fun p => (Some (fst p), Some (snd p))) files) (map (fun p => (Some (fst p), Some (snd p))) files).
  Proof.
    clear - Hf. induction files as [|[iix pos] files IH]; intros xs X3; cbn [length for_shards] in X3.
    - assert (xs = []) as -> by congruence. exact I.
    - destruct (f iix pos) as [y| | |] eqn:Ey; try discriminate. cbn [bind] in X3.
      destruct (for_shards f (length files) files) as [l| | |] eqn:El; try discriminate. cbn [bind] in X3. assert (xs = y :: l) as -> by congruence.
      cbn [map shards_at fst snd]. split; [|apply IH; reflexivity]. pose proof (serving_between (MkServer VRecv y false) (Some iix)) as Sb.
      cbn [v_shard] in Sb. rewrite (Hf _ _ _ Ey) in Sb. exact Sb.
  Qed.
  Lemma append_stopped_start ss dk docs : history u c ss dk -> docs_fit (all_docs ss) -> append_stopped u dk docs (files_of dk).
  Proof.
    intros Hi Fit. destruct (words_total u (all_docs ss)) as [w0 W0].
    destruct (history_inv u c k m n O Hn Hfl ss dk Hi Fit w0 W0) as (fn0 & fs0 & D).
    pose proof (df_len _ Fit) as L0. change (2 ^ 32) with 4294967296 in L0.
    destruct (open_start u c k m n O Hn Hfl _ _ _ _ _ D ltac:(lia)) as (x & ws & E & I).
    pose proof (di_cfg _ _ _ _ _ _ _ _ _ _ D) as Ec. destruct (open_indexer_parts dk x ws E Ec) as (X1 & X2 & X3).
    eapply append_later; [exact E|].
    assert (Efs : files_of dk = MkFiles (w_cfg (files_of dk)) (snd (x_dmds x)) (w_fnames (files_of dk)) (w_shards (files_of dk))).
    { rewrite X2. reflexivity. }
    rewrite Efs at 2. eapply (stopped_running u x ws _ docs _ [] docs None (x_fnames x) (x_dmds x) []).
    - apply steps_refl.
    - reflexivity.
    - reflexivity.
    - reflexivity.
    - destruct docs; [reflexivity|]. apply add_cut_no.
    - pose proof (di_shards _ _ _ _ _ _ _ _ _ _ D) as Ls. unfold files_of. cbn [w_shards]. unfold session_start, init. cbn [s_servers].
      rewrite <- Ls in X3. exact (started_files shard_append append_file _ _ X3).
  Qed.
  Lemma at_end xs : forall old, length old = length xs -> shards_at closing xs old (map some_pair (map shard_close xs)).
  Proof.
    clear. induction xs as [|x xs IH]; intros [|o old] L; cbn [length] in L; try discriminate; cbn [map shards_at]; [exact I|].
    split; [|apply IH; congruence]. unfold shard_close, some_pair. cbn [fst snd]. eapply (closing_table x (fst o) _ []). rewrite app_nil_r. reflexivity.
  Qed.
  (** A session can be stopped when everything is done. *)
  Lemma create_stopped_end docs : docs_fit docs -> (0 < cf_numshatters c)%Z -> exists dk, history u c [docs] dk /\ create_stopped u c docs (files_of dk).
  Proof.
    intros Fit Hsh. destruct (create_start u c k m n O Hn Hfl) as (x & ws & E & I). destruct (words_total u docs) as [w1 W1].
    destruct (session_inv u c k m n O Hn _ x ws [] [] [] docs w1 E I Fit (Forall2_nil _) W1) as (A & _ & (fn & dm & Ed) & La).
    pose proof (xi_cfg _ _ _ _ _ _ _ _ _ _ I) as Xc. pose proof (df_len _ Fit) as L1. change (2 ^ 32) with 4294967296 in L1.
    destruct (completes u c k m n ws (nlen (@nil (bytes * doc))) (requests docs) (x_shards x) O) as (st & St & Fi); auto.
    { change (2 ^ 32) with 4294967296. clear - Hn. lia. } { apply (xi_ws _ _ _ _ _ _ _ _ _ _ I). }
    { change (2 ^ 32) with 4294967296. unfold requests, nlen in *. rewrite map_length. cbn [length]. clear - L1. lia. }
    { apply (xi_shards _ _ _ _ _ _ _ _ _ _ I). }
    destruct Fi as (_ & Em & _). rewrite <- La, <- Xc in St.
    pose proof (Session u _ _ _ _ _ _ _ _ _ E Ed St Em) as Ss. destruct (A _ Ss) as (fn' & fs' & D').
    pose proof (di_shards _ _ _ _ _ _ _ _ _ _ D') as L. cbn [k_shards] in L. rewrite map_length in L.
    eexists. split; [constructor; exact Ss|]. eapply create_later; [exact E|]. eapply stopped_closing; [exact St|exact Em|exact Ed|].
    unfold files_of. cbn [k_cfg k_dmd k_fnames k_shards option_map].
    change (fun p : bytes * bytes => (Some (fst p), Some (snd p))) with some_pair.
    apply (close_shards x (map v_shard (s_servers st)) (MkFiles None None None _) fn dm). apply at_end.
    cbn [w_shards]. rewrite repeat_length, (co_shards _ _ _ _ O), Nat2Z.id. symmetry. exact L.
  Qed.
End A.
