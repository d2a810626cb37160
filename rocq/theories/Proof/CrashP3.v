(** Stopping at any point of an append session, Close included. *)
From Verif Require Import Model.Base Model.Address Model.Varint Model.Utf8 Model.Token Model.Blotter Model.Post Model.Poster Model.Shatter Model.Shard Model.Dmd Model.Fnames Model.Conc Model.Config Model.Json Model.Run Model.Index Model.Query Model.Session Model.Crash.
From Verif Require Import Spec.Text Spec.Fingerprint Spec.Configs Spec.Posting Spec.Postings Spec.Paths Spec.Reading Spec.Querying Spec.History.
From Verif Require Import Proof.Tactics Proof.VarintP Proof.TokenP Proof.BlotterP Proof.ShatterP Proof.IndexP2 Proof.DmdP Proof.FnamesP Proof.FnamesP2 Proof.PosterP Proof.ShardP Proof.ConcP Proof.ConcRun Proof.QueryP Proof.JsonP Proof.ConfigP Proof.SessionP Proof.SessionP2 Proof.JsonP2 Proof.CutP Proof.CrashP Proof.KeepP Proof.CrashP2.
Local Open Scope N_scope.

Lemma reads_first_app f a : forall r b, reads_first f r (a ++ b) -> reads_first f r a.
Proof.
  induction a as [|d a IH]; intros r b H; cbn [app reads_first] in *; [exact I|]. destruct H as (r' & E & H). exists r'. split; [exact E|]. eapply IH, H.
Qed.
Lemma carriers_app H k m n q : forall a last b, carriers H k m n last (a ++ b) q = carriers H k m n last a q ++ carriers H k m n (last + nlen a) b q.
Proof.
  induction a as [|ws a IH]; intros last b; cbn [app carriers].
  - unfold nlen. cbn [length]. rewrite N.add_0_r. reflexivity.
  - rewrite IH, <- app_assoc. do 3 f_equal. unfold nlen. cbn [length]. lia.
Qed.
Lemma place_of_app a b d : d - 1 < nlen a -> place_of (a ++ b) d = place_of a d.
Proof. unfold place_of, nlen. intros L. rewrite nth_error_app1 by lia. reflexivity. Qed.

(** Opening the shards one by one fails at the first that cannot be opened. *)
Lemma for_files_cases {A} (f : bytes -> bytes -> result A) (P : nat -> A -> Prop) files : forall b n,
  length files = n ->
  (forall j fl, nth_error files j = Some fl -> exists iix pos, fl = (Some iix, Some pos) /\ (fails (f iix pos) \/ exists y, f iix pos = Ok y /\ P (b + j)%nat y)) ->
  fails (for_files f n files) \/ exists ys, for_files f n files = Ok ys /\ length ys = n /\ forall j y, nth_error ys j = Some y -> P (b + j)%nat y.
Proof.
  induction files as [|fl files IH]; intros b n L X; cbn [length] in L; subst n; cbn [for_files].
  - right. exists []. split; [reflexivity|]. split; [reflexivity|]. intros [|j] y E; discriminate.
  - destruct (X 0%nat fl eq_refl) as (iix & pos & -> & [[e Ey]|(y & Ey & Py)]); rewrite Ey; cbn [bind]; [left; exists e; reflexivity|].
    destruct (IH (S b) (length files) eq_refl) as [[e E]|(ys & E & Ly & Z)].
    { intros j fl Ej. replace (S b + j)%nat with (b + S j)%nat by lia. exact (X (S j) fl Ej). }
    + rewrite E. left. exists e. reflexivity.
    + rewrite E. cbn [bind]. right. exists (y :: ys). split; [reflexivity|]. split; [cbn [length]; lia|].
      intros [|j] z Ej; cbn [nth_error] in Ej.
      * assert (z = y) as -> by congruence. exact Py.
      * replace (b + S j)%nat with (S b + j)%nat by lia. eauto.
Qed.

Section A.
  Variables (u : unicode) (c : config) (k m n : nat).
  Hypothesis F : cfg_full c k m n.
  Hypothesis V : cfg_values c.
  Let O : cfg_ok c k m n := cu_ok _ _ _ _ F.
  Let Hn : N.of_nat n < 65536 := cu_n _ _ _ _ F.
  Let Hfl : (1 <= cf_flush c)%Z := cu_flush _ _ _ _ F.
  Notation held wss s j := (carriers (word_hash u) k m n 0 wss (N.of_nat s * N.of_nat n + N.of_nat j)).

  (** What each shard's files allow to read. *)
  Definition shard_reads (wss : list (list bytes)) (j : nat) (si : shard_index) : Prop :=
    forall s, (s < num_slots)%nat -> reads_first (si_file si) (new_posts (nth s (si_heads si) (-1)%Z)) (held wss s j).
  Lemma content_held docs wss j s : docs_fit docs -> words_of (word_char u) docs wss -> (j < n)%nat -> (s < num_slots)%nat ->
    content_of (posts_for (word_hash u) k m n j 0 wss) s = held wss s j.
  Proof.
    intros Fit Ww Lj Ls. unfold content_of. pose proof (df_len _ Fit) as L. change (2 ^ 32) with 4294967296 in L. pose proof (words_of_len _ _ _ Ww) as Lw.
    apply posts_carriers; [apply (co_n _ _ _ _ O)|exact Lj|exact Ls|unfold nlen in *; lia|eapply words_of_small, Ww].
  Qed.

  (** An index whose shards can be read that far, and that knows the places. *)
  Lemma reads_queries (dm : bytes) (fn : fnames) (ys : list shard_index) wss (docs : list (bytes * doc)) :
    length ys = n -> (forall j si, nth_error ys j = Some si -> shard_reads wss j si) -> length wss = length docs ->
    (forall s j d, (s < num_slots)%nat -> (j < n)%nat -> In d (held wss s j) -> docid2doc (MkIndex c dm fn ys) d = Ok (place_of docs d)) ->
    forall grow blot fuel back,
      let ids := carriers (word_hash u) k m n 0 wss (blot mod (N.of_nat n * 65536)) in
      (length back <= length ids)%nat -> (length docs < fuel)%nat ->
      exists ds, query_get grow (MkIndex c dm fn ys) fuel blot (Some (0%nat, back)) = Ok ds /\
        docs_keys ds = map (place_of docs) (firstn (length back) ids).
  Proof.
    intros Ly Ny Lw Pl grow blot fuel back ids Lb Lf. pose proof (co_n _ _ _ _ O) as Pn.
    assert (Lsh : (QueryP.shard_of n blot < n)%nat) by (unfold QueryP.shard_of; assert (X : blot mod N.of_nat n < N.of_nat n) by (apply N.mod_lt; lia); clear - X; lia).
    assert (Lsl : (QueryP.slot_of n blot < num_slots)%nat) by (unfold QueryP.slot_of, num_slots; assert (X : blot / N.of_nat n mod 65536 < 65536) by (apply N.mod_lt; lia); clear - X; lia).
    destruct (nth_ex ys (QueryP.shard_of n blot)) as [si Esi]; [congruence|].
    pose proof (Ny _ si Esi _ Lsl) as Rd.
    assert (Eids : held wss (QueryP.slot_of n blot) (QueryP.shard_of n blot) = ids) by (unfold ids; rewrite (blot_slot n Pn blot); reflexivity).
    rewrite Eids in Rd.
    assert (Eq : query_get grow (MkIndex c dm fn ys) fuel blot (Some (0%nat, back)) =
      get_loop grow (MkIndex c dm fn ys) fuel true (si_file si) (new_posts (nth (QueryP.slot_of n blot) (si_heads si) (-1)%Z)) (Some (0%nat, back))).
    { unfold query_get, get_address. cbn [ix_shards]. assert (u32 (nlen ys) = N.of_nat n) as -> by (unfold u32, nlen; rewrite Ly; apply N.mod_small; lia).
      destruct (N.eqb_spec (N.of_nat n) 0); [lia|]. cbn [bind]. fold (QueryP.shard_of n blot). rewrite Esi. reflexivity. }
    rewrite Eq. pose proof (carriers_len (word_hash u) k m n (blot mod (N.of_nat n * 65536)) wss 0) as Lc. fold ids in Lc.
    rewrite (get_loop_first grow _ (place_of docs) (si_file si) ids) by
      (exact Rd || lia || (intros d Hd; apply (Pl _ _ d Lsl Lsh); rewrite Eids; exact Hd)).
    eexists. split; [reflexivity|]. unfold docs_keys, docs_list. rewrite Nat.sub_0_r.
    assert (Lm : length (map (place_of docs) (firstn (length back) ids)) = length back) by (rewrite map_length, firstn_length; lia).
    pose proof (store_keys grow (map (place_of docs) (firstn (length back) ids)) 0 back) as Sk. rewrite Lm in Sk. apply Sk. lia.
  Qed.

  (** Where the session is, by what it leaves of the file names and the tables. *)
  Lemma same_tables {A} (P : A -> option bytes -> option bytes * option bytes -> Prop) xs : (forall x iix p, P x iix p -> fst p = iix) ->
    forall old new, shards_at P xs old new -> map fst new = map fst old.
  Proof.
    clear. intros X. induction xs as [|x xs IH]; intros [|o old] [|f new] H; cbn [shards_at] in H; try contradiction; [reflexivity|].
    destruct H as [H1 H2]. cbn [map]. f_equal; [eapply X, H1|eapply IH, H2].
  Qed.
  Lemma append_stages dk docs x ws fs : Crash.stopped u x ws (files_of dk) docs fs ->
    (w_fnames fs = k_fnames dk /\ map fst (w_shards fs) = map (fun p => Some (fst p)) (k_shards dk)) \/
    exists st fn dm ids pre post,
      session_steps u (x_cfg x) (session_start (adder_last (fst (x_dmds x))) ws (x_shards x) (requests docs)) st /\
      s_main st = MChan (length (s_servers st)) /\ doc_ids (x_fnames x) (x_dmds x) docs = Ok (fn, dm, ids) /\
      fn_write fn = pre ++ post /\ w_fnames fs = Some pre /\
      forall j fl, nth_error (w_shards fs) j = Some fl ->
        (exists o, nth_error (k_shards dk) j = Some o /\ fst fl = Some (fst o)) \/
        exists y tp tq, nth_error (map v_shard (s_servers st)) j = Some y /\ iix_bytes (x_ind (flush_ind y)) = tp ++ tq /\
          fl = (Some tp, Some (x_file (flush_ind y))).
  Proof.
    clear F V O Hn Hfl. intros St.
    assert (Mo : map fst (w_shards (files_of dk)) = map (fun p => Some (fst p)) (k_shards dk)).
    { unfold files_of. cbn [w_shards]. rewrite map_map. reflexivity. }
    assert (Nt : forall (sh : list (option bytes * option bytes)) j fl, map fst sh = map fst (w_shards (files_of dk)) -> nth_error sh j = Some fl ->
      exists o, nth_error (k_shards dk) j = Some o /\ fst fl = Some (fst o)).
    { intros sh j fl E Ej. rewrite Mo in E. assert (X : nth_error (map fst sh) j = nth_error (map (fun p => Some (fst p)) (k_shards dk)) j) by congruence.
      rewrite !nth_error_map, Ej in X. destruct (nth_error (k_shards dk) j) as [o|]; [|discriminate]. exists o. split; [reflexivity|]. cbn [option_map] in X. congruence. }
    inversion St as [st done rest req fn dm ids f sh H1 H2 H3 H4 H5 H6 Efs|st fn dm ids fs1 H1 H2 H3 H4 Efs].
    - left. cbn [w_fnames w_shards]. split; [reflexivity|]. rewrite <- Mo. eapply same_tables; [|exact H6]. intros ? ? ? []; reflexivity.
    - subst fs1. inversion H4 as [f sh W S E|pre post sh W S E|f sh W S E|sh S E]; cbn [w_fnames w_shards].
      + left. split; [reflexivity|]. rewrite <- Mo. eapply same_tables; [|exact S]. intros ? ? ? ->; reflexivity.
      + right. exists st, fn, dm, ids, pre, post. repeat (split; [assumption || reflexivity|]). intros j fl Ej. left. eapply Nt; [|exact Ej].
        eapply same_tables; [|exact S]. intros ? ? ? ->; reflexivity.
      + right. exists st, fn, dm, ids, (fn_write fn), []. repeat (split; [assumption || reflexivity || (symmetry; apply app_nil_r)|]). intros j fl Ej. left. eapply Nt; [|exact Ej].
        eapply same_tables; [|exact S]. intros ? ? ? ->; reflexivity.
      + right. exists st, fn, dm, ids, (fn_write fn), []. repeat (split; [assumption || reflexivity || (symmetry; apply app_nil_r)|]). intros j fl Ej.
        destruct (shards_at_nth _ _ _ _ S) as [L1 N1]. pose proof (nth_len _ _ _ Ej) as Lj. rewrite L1 in Lj.
        pose proof (shards_at_len _ _ _ _ S) as L2. destruct (nth_ex _ _ Lj) as [y Ey]. destruct (nth_ex (w_shards (files_of dk)) j) as [o Eo]; [congruence|].
        pose proof (N1 j y o fl Ey Eo Ej) as C. inversion C as [pos W E'|tp tq W E'].
        * left. unfold files_of in Eo. cbn [w_shards] in Eo. rewrite nth_error_map in Eo. destruct (nth_error (k_shards dk) j) as [p|]; [|discriminate].
          exists p. split; [reflexivity|]. cbn [option_map] in Eo. cbn [fst]. assert (o = (Some (fst p), Some (snd p))) as -> by congruence. reflexivity.
        * right. exists y, tp, tq. auto.
  Qed.

  Lemma old_logs sorted docs0 wss fn0 fs0 dk x ws : disk_inv u c k m n docs0 wss fn0 fs0 dk -> open_indexer dk = Ok (x, ws) ->
    exists logs, (forall j sh, nth_error (x_shards x) j = Some sh -> grown (logs j) sh) /\
      forall j iix pos0, nth_error (k_shards dk) j = Some (iix, pos0) -> forall pos, keeps 0 (logs j) pos ->
        exists si, shard_open sorted iix pos = Ok si /\ si_file si = pos /\
          forall s, (s < num_slots)%nat -> reads_first pos (new_posts (nth s (si_heads si) (-1)%Z)) (content_of (posts_for (word_hash u) k m n j 0 wss) s).
  Proof.
    intros D Ex. pose proof (di_cfg _ _ _ _ _ _ _ _ _ _ D) as Ec. pose proof (di_shards _ _ _ _ _ _ _ _ _ _ D) as Ls.
    destruct (open_indexer_parts c k m n F dk x ws Ex Ec) as (_ & _ & X3). destruct (for_shards_nth _ _ _ _ X3) as [Lx Nx].
    assert (Cl : forall j, exists log, (forall sh, nth_error (x_shards x) j = Some sh -> grown log sh) /\
      forall iix pos0, nth_error (k_shards dk) j = Some (iix, pos0) -> forall pos, keeps 0 log pos ->
        exists si, shard_open sorted iix pos = Ok si /\ si_file si = pos /\
        forall s, (s < num_slots)%nat -> reads_first pos (new_posts (nth s (si_heads si) (-1)%Z)) (content_of (posts_for (word_hash u) k m n j 0 wss) s)).
    { intros j. destruct (nth_error (k_shards dk) j) as [[iix pos0]|] eqn:Ej.
      - destruct (di_closed _ _ _ _ _ _ _ _ _ _ D j _ Ej) as (y & log & J & Fl & Sz & Ef).
        assert (iix = iix_bytes (x_ind y)) as -> by congruence. assert (pos0 = x_file y) as -> by congruence.
        exists log. split.
        + intros sh Esh. destruct (Nx j sh Esh) as (i2 & p2 & E2 & E3). rewrite Ej in E2. injection E2 as <- <-.
          rewrite (shard_append_spec y log _ J Fl Sz) in E3. assert (sh = y) as -> by congruence. eapply inv_grown, J.
        + intros i2 p2 E2 pos K. injection E2 as <- _. eapply open_keeps; eauto.
      - exists []. split; [|discriminate]. intros sh Esh. destruct (Nx j sh Esh) as (i2 & p2 & E2 & _). congruence. }
    destruct (finite_choice (fun j log => (forall sh, nth_error (x_shards x) j = Some sh -> grown log sh) /\
      forall iix pos0, nth_error (k_shards dk) j = Some (iix, pos0) -> forall pos, keeps 0 log pos ->
        exists si, shard_open sorted iix pos = Ok si /\ si_file si = pos /\
        forall s, (s < num_slots)%nat -> reads_first pos (new_posts (nth s (si_heads si) (-1)%Z)) (content_of (posts_for (word_hash u) k m n j 0 wss) s)) n)
      as [logs Hl]; [intros j _; apply Cl|exact []|]. exists logs. split.
    - intros j sh Ej. apply Hl; [|exact Ej]. rewrite <- Lx. eapply nth_len, Ej.
    - intros j iix pos0 Ej. apply (Hl j) with (pos0 := pos0); [|exact Ej]. rewrite <- Ls. eapply nth_len, Ej.
  Qed.
  (** A closed shard whose table is whole, or not. *)
  Lemma new_table sorted x hist tp tq : closed_files (shard_close x) hist -> iix_bytes (x_ind (flush_ind x)) = tp ++ tq ->
    fails (shard_open sorted tp (x_file (flush_ind x))) \/
    exists si, shard_open sorted tp (x_file (flush_ind x)) = Ok si /\ si_file si = x_file (flush_ind x) /\
      forall s, (s < num_slots)%nat -> reads_first (si_file si) (new_posts (nth s (si_heads si) (-1)%Z)) (content_of hist s).
  Proof.
    clear. intros C Et. destruct C as (y & log & J & Fl & Sz & E). unfold shard_close in E.
    assert (E1 : iix_bytes (x_ind (flush_ind x)) = iix_bytes (x_ind y)) by congruence.
    assert (E2 : x_file (flush_ind x) = x_file y) by congruence. rewrite E1 in Et. rewrite E2.
    destruct tq as [|b tq].
    - right. rewrite app_nil_r in Et. subst tp. destruct (open_keeps sorted y log hist (x_file y) J Fl Sz) as (si & Es & Ef & R).
      { apply grown_keeps. eapply inv_grown, J. }
      exists si. split; [exact Es|]. split; [exact Ef|]. rewrite Ef. exact R.
    - left. eapply open_cut; [eapply shard_inv_table_ok; [exact J|exact Sz]|destruct J; assumption|exact Et|discriminate].
  Qed.
  (** At any point: an error, or the documents of the earlier sessions. *)
  Theorem append_stopped_any sorted ss dk wss docs fs dirs : sorts sorted -> history u c ss dk -> docs_fit (all_docs ss ++ docs) ->
    words_of (word_char u) (all_docs ss) wss -> append_stopped u dk docs fs -> dirs (cf_root c) = fs ->
    fails (open_files sorted dirs (cf_root c)) \/
    exists ix, open_files sorted dirs (cf_root c) = Ok ix /\
    forall grow blot fuel back,
      let ids := carriers (word_hash u) k m n 0 wss (blot mod (N.of_nat n * 65536)) in
      (length back <= length ids)%nat -> (length (all_docs ss) < fuel)%nat ->
      exists ds, query_get grow ix fuel blot (Some (0%nat, back)) = Ok ds /\
        docs_keys ds = map (place_of (all_docs ss)) (firstn (length back) ids).
  Proof.
    intros Hs Hi Fit Ww Ap Ed. pose proof (fit_app _ _ Fit) as Fit0. pose proof Ap as Ap0.
    destruct (history_inv u c k m n O Hn Hfl ss dk Hi Fit0 wss Ww) as (fn0 & fs0 & D).
    destruct (open_index_ok u c k m n O Hn sorted Hs _ wss fn0 fs0 dk D Ww Fit0) as (ix0 & E0 & I0 & _).
    pose proof (di_cfg _ _ _ _ _ _ _ _ _ _ D) as Ec. destruct (open_index_parts c k m n F sorted dk ix0 E0 Ec) as [P1 P2].
    destruct Ap as [x ws fs' Ex St].
    pose proof (di_shards _ _ _ _ _ _ _ _ _ _ D) as Ls.
    destruct (append_stages dk docs x ws fs' St) as [[En Et]|(st & fn & dm & ids & pre & post & H1 & H2 & H3 & Ef & En & Tb)].
    { right. exact (append_stopped_reads u c k m n F V sorted ss dk wss docs fs' dirs Hs Hi Fit0 Ww Ap0 Ed En Et). }
    (* the session when it is whole *)
    pose proof (Session u _ _ _ _ _ _ _ _ _ Ex H3 H1 H2) as Ss.
    destruct (words_total u docs) as [w1 W1].
    pose proof (df_len _ Fit0) as L0. change (2 ^ 32) with 4294967296 in L0.
    destruct (open_start u c k m n O Hn Hfl _ _ _ _ _ D ltac:(lia)) as (x' & ws' & Ex' & I').
    rewrite Ex in Ex'. assert (x' = x) as -> by congruence. assert (ws' = ws) as -> by congruence. clear Ex'.
    destruct (session_inv u c k m n O Hn _ x ws _ _ _ docs w1 Ex I' Fit Ww W1) as (A & _).
    destruct (A _ Ss) as (fn1 & fs1 & D1). clear A.
    assert (Ww1 : words_of (word_char u) (all_docs ss ++ docs) (wss ++ w1)) by (apply Forall2_app; assumption).
    destruct (open_index_ok u c k m n O Hn sorted Hs _ _ fn1 fs1 _ D1 Ww1 Fit) as (ix1 & E1 & I1 & _).
    destruct (open_index_parts c k m n F sorted _ ix1 E1 (di_cfg _ _ _ _ _ _ _ _ _ _ D1)) as [Q1 Q2]. cbn [k_dmd k_fnames read_some] in Q1, Q2.
    destruct (old_logs sorted _ wss fn0 fs0 dk x ws D Ex) as (logs & G & Op).
    destruct (append_leaves u c k m n F dk docs x ws fs' logs Ex Ec G Ls (ix_dmd ix0) P1 St) as ((e & Ew) & Wc & Wl & Wk).
    destruct (for_files_cases (shard_open sorted) (shard_reads wss) (w_shards fs') 0 n Wl) as [Fa|(ys & Ey & Ly & Ny)].
    { intros j fl Ej. destruct (Wk j fl Ej) as (pos & Ep & K). assert (Lj : (j < n)%nat) by (rewrite <- Wl; eapply nth_len, Ej).
      destruct (Tb j fl Ej) as [([iix pos0] & Eo & Ei)|(y & tp & tq & Ey & Etb & ->)].
      - exists iix, pos. split; [destruct fl; cbn [fst snd] in *; congruence|]. right.
        destruct (Op j iix pos0 Eo pos K) as (si & Es & Ef2 & Rd). exists si. split; [exact Es|]. intros s Lsl. cbn [Nat.add].
        rewrite Ef2, <- (content_held (all_docs ss) wss j s Fit0 Ww Lj Lsl). apply Rd, Lsl.
      - exists tp, (x_file (flush_ind y)). split; [reflexivity|].
        assert (C : closed_files (shard_close y) (posts_for (word_hash u) k m n j 0 (wss ++ w1))).
        { apply (di_closed _ _ _ _ _ _ _ _ _ _ D1). cbn [k_shards]. rewrite nth_error_map, Ey. reflexivity. }
        destruct (new_table sorted y _ tp tq C Etb) as [X|(si & Es & _ & Rd)]; [left; exact X|]. right. exists si. split; [exact Es|].
        intros s Lsl. cbn [Nat.add]. specialize (Rd s Lsl). rewrite (content_held _ (wss ++ w1) j s Fit Ww1 Lj Lsl), carriers_app in Rd.
        eapply reads_first_app, Rd. }
    all: assert (Eo : open_files sorted dirs (cf_root c) =
      do! fn' <- read_fnames pre; do! xs <- for_files (shard_open sorted) n (w_shards fs'); Ok (MkIndex c (ix_dmd ix0 ++ e) fn' xs)).
    1,3: unfold open_files; rewrite Ed, Wc, (cfg_back c k m n F V); cbn [bind]; rewrite Ed, Ew, En; cbn [read_some bind];
      rewrite (co_shards _ _ _ _ O), Nat2Z.id; assert ((Z.of_nat n <? 0)%Z = false) as -> by lia; reflexivity.
    all: rewrite Ef in Q2; destruct (fnames_cut _ _ _ Q2) as [Rn|[er Rn]]; rewrite Rn in Eo; cbn [bind] in Eo.
    - left. destruct Fa as [er Ea]. rewrite Ea in Eo. exists er. exact Eo.
    - left. exists er. exact Eo.
    - right. rewrite Ey in Eo. cbn [bind] in Eo. eexists. split; [exact Eo|].
      apply (reads_queries (ix_dmd ix0 ++ e) (ix_fnames ix1) ys wss (all_docs ss) Ly Ny (words_of_len _ _ _ Ww)).
      intros s j d Lsl Lj Hd. pose proof (io_place _ _ _ _ I0 _ _ d Lj Lsl Hd) as Pd0.
      assert (Hd1 : In d (held (wss ++ w1) s j)) by (rewrite carriers_app; apply in_or_app; left; exact Hd).
      pose proof (io_place _ _ _ _ I1 _ _ d Lj Lsl Hd1) as Pd1. cbv beta in Pd0, Pd1.
      apply carriers_in in Hd. pose proof (words_of_len _ _ _ Ww) as Lw. rewrite place_of_app in Pd1 by (unfold nlen in *; lia).
      rewrite <- Pd1. unfold docid2doc in Pd0, Pd1 |- *. cbn [ix_dmd ix_fnames].
      destruct (dmd_lookup (ix_dmd ix0) d) as [v| | |] eqn:El; try discriminate. rewrite (lookup_longer _ e _ _ El).
      assert (Lg : longer (ix_dmd ix0) (adder_close dm)).
      { apply longer_close. eapply longer_ids; [exact H3|]. destruct (open_indexer_parts c k m n F dk x ws Ex Ec) as (_ & X2 & _). rewrite X2, P1. apply longer_refl. }
      destruct Lg as [e1 Lg]. rewrite Lg in Q1. assert (ix_dmd ix1 = ix_dmd ix0 ++ e1) as -> by congruence. rewrite (lookup_longer _ e1 _ _ El). reflexivity.
    - left. exists er. exact Eo.
  Qed.

  (** A session can be stopped when everything is done. *)
  Lemma append_stopped_end ss dk docs : history u c ss dk -> docs_fit (all_docs ss ++ docs) -> (0 < cf_numshatters c)%Z ->
    exists dk', history u c (docs :: ss) dk' /\ append_stopped u dk docs (files_of dk').
  Proof.
    intros Hi Fit Hsh. assert (Fit0 : docs_fit (all_docs ss)) by (eapply fit_app, Fit).
    destruct (words_total u (all_docs ss)) as [w0 W0]. destruct (words_total u docs) as [w1 W1].
    destruct (history_inv u c k m n O Hn Hfl ss dk Hi Fit0 w0 W0) as (fn0 & fs0 & D).
    pose proof (df_len _ Fit0) as L0. pose proof (df_len _ Fit) as L1. change (2 ^ 32) with 4294967296 in L0, L1.
    destruct (open_start u c k m n O Hn Hfl _ _ _ _ _ D ltac:(lia)) as (x & ws & E & I).
    destruct (session_inv u c k m n O Hn _ x ws _ _ _ docs w1 E I Fit W0 W1) as (A & _ & (fn & dm & Ed) & La).
    pose proof (xi_cfg _ _ _ _ _ _ _ _ _ _ I) as Xc.
    destruct (completes u c k m n ws (nlen (all_docs ss)) (requests docs) (x_shards x) O) as (st & St & Fi); auto.
    { change (2 ^ 32) with 4294967296. clear - Hn. lia. } { apply (xi_ws _ _ _ _ _ _ _ _ _ _ I). }
    { change (2 ^ 32) with 4294967296. unfold requests, nlen in *. rewrite map_length. rewrite app_length in L1. clear - L1. lia. }
    { apply (xi_shards _ _ _ _ _ _ _ _ _ _ I). }
    destruct Fi as (_ & Em & _). rewrite <- La, <- Xc in St.
    pose proof (Session u _ _ _ _ _ _ _ _ _ E Ed St Em) as Ss. destruct (A _ Ss) as (fn' & fs' & D').
    pose proof (di_shards _ _ _ _ _ _ _ _ _ _ D') as L. cbn [k_shards] in L. rewrite map_length in L.
    assert (Wc : w_cfg (files_of dk) = Some (config_write None c)).
    { unfold files_of. cbn [w_cfg]. rewrite (di_cfg _ _ _ _ _ _ _ _ _ _ D). reflexivity. }
    eexists. split; [eapply history_append; [exact Hi|exact Ss]|].
    eapply append_later; [exact E|]. eapply stopped_closing; [exact St|exact Em|exact Ed|].
    match goal with |- stopped_close ?x ?xs ?old ?fn ?dm ?fs => pose proof (close_shards x xs old fn dm (map some_pair (map shard_close xs))) as X end.
    rewrite Wc, Xc, config_same in X. unfold files_of at 2. cbn [k_cfg k_dmd k_fnames k_shards option_map].
    change (fun p : bytes * bytes => (Some (fst p), Some (snd p))) with some_pair. rewrite Xc. apply X. apply at_end.
    unfold files_of. cbn [w_shards]. rewrite map_length, (di_shards _ _ _ _ _ _ _ _ _ _ D). symmetry. exact L.
  Qed.
End A.
