(** C79, C80: the text in which documents are searched. *)
From Coq Require Import String.
From Verif Require Import Model.Base Model.Utf8 Model.Token Model.Blotter Model.Post Model.Address Model.Poster Model.Shatter Model.Shard Model.Dmd Model.Fnames Model.Conc Model.Config Model.Run Model.Index Model.Query Model.Session Model.Cmd Model.Walk Model.Loading.
From Verif Require Import Spec.Text Spec.Fingerprint Spec.Configs Spec.Paths Spec.Reading Spec.Querying Spec.Limited Spec.History Spec.Stretch Spec.Tree Spec.Loading Spec.Str.
From Verif Require Import Proof.Tactics Proof.TokenP Proof.BlotterP Proof.BlotsP Proof.QueryP Proof.QueryP2 Proof.QueryW Proof.SessionP Proof.SessionP2 Proof.LikeP2 Proof.LikeP3 Proof.LikeW Proof.LimitP2 Proof.WalkP Proof.LoadP Proof.LoadP2 Proof.LoadP3.
Local Open Scope N_scope.
Local Open Scope list_scope.

(** C79 fails for slices that are used again: five documents in the default configuration,
    all in place; the caller gets a blot, searches the three documents, and gets another
    blot into the same slice. Neither of the two documents is searched in its file then,
    where the blot is, but in the text of a document of the first blot. *)
Theorem C79_stale_refuted : exists c docs fs,
  default_config (bs "/") (bs "x") = Ok c /\ cfg_full c 1 10 2 /\ docs_fit docs /\ in_place fs docs /\
  forall u sorted grow fuel, sorts sorted -> (5 < fuel)%nat ->
    (exists dk, history u c [docs] dk) /\
    forall dk ix, history u c [docs] dk -> open_index sorted dk = Ok ix ->
    exists q1 q2 back1 back2 back3 found,
      query_get grow ix fuel q1 (Some (0%nat, repeat zero_doc 3)) = Ok (Some (3%nat, back1)) /\
      Forall2 (fun d r => search u fs c q1 d = Ok r) back1 found /\ back2 = map snd found /\
      query_get grow ix fuel q2 (Some (0%nat, back2)) = Ok (Some (2%nat, back3)) /\
      forall d, In d (firstn 2 back3) ->
        (exists s e d', search u fs c q2 (MkDoc (d_path d) (d_start d) (d_end d) []) = Ok (s, e, d')) /\
        search u fs c q2 d = Err EOther.
Proof. exact stale_text. Qed.
(** Exactly which text a document comes with, for all indexes, damaged ones too: none if the
    entry was nil, otherwise the one that its place in the slice had before. *)
Theorem C79_get : forall grow ix fuel blot ds ds', query_get grow ix fuel blot ds = Ok ds' -> texts_kept ds ds'.
Proof. intros grow ix fuel blot ds ds'. exact (get_kept grow ix fuel blot ds ds'). Qed.
Theorem C79_next : forall grow ix fuel k q dst r eof, query_next grow ix fuel k q dst = Ok (r, eof) -> entries_kept dst (r_dst r).
Proof. intros grow ix fuel k q dst r eof. exact (next_kept grow ix fuel k q dst r eof). Qed.
(** So with slices that are nil or have no texts in them FindBlot finds the blot in every
    document, in the text that was indexed. *)
Theorem C79_get_partial : forall u c k m n sorted, cfg_full c k m n -> sorts sorted ->
  forall ss dk wss fs, history u c ss dk -> docs_fit (all_docs ss) -> words_of (word_char u) (all_docs ss) wss -> in_place fs (all_docs ss) ->
  exists ix, open_index sorted dk = Ok ix /\
  forall grow fuel q e ds, (List.length (all_docs ss) < fuel)%nat -> q < N.of_nat n * 65536 -> fresh (MkEntry e ds) ->
  exists ds', query_get grow ix fuel q ds = Ok ds' /\ forall d, In d (docs_list ds') ->
    exists i cwd x s e d', nth_error (all_docs ss) i = Some (cwd, x) /\ doc_key d = place_of (all_docs ss) (N.of_nat (Datatypes.S i)) /\
      search u fs c q d = Ok (s, e, d') /\ d_dat d' = d_dat x /\ d_start x <= s /\ s <= e /\ e <= d_start x + nlen (d_dat x).
Proof.
  intros u c k m n sorted F So ss dk wss fs Hi Fit Ww P. destruct (opened u c k m n sorted F So ss dk wss Hi Fit Ww) as (ix & E & I). exists ix. split; [exact E|].
  intros grow fuel q e0 ds Lf Lq Fr.
  assert (Lc : (List.length (held (word_hash u) k m n wss (shard_of n q) (slot_of n q)) < fuel)%nat).
  { unfold held. pose proof (carriers_len (word_hash u) k m n (N.of_nat (slot_of n q) * N.of_nat n + N.of_nat (shard_of n q)) wss 0). pose proof (words_of_len _ _ _ Ww). clear - Lf H H0. lia. }
  assert (Eb : held (word_hash u) k m n wss (shard_of n q) (slot_of n q) = carriers (word_hash u) k m n 0 wss q).
  { change (at_blot n (held (word_hash u) k m n wss) q = carriers (word_hash u) k m n 0 wss q). apply at_blot_held; [exact (co_n _ _ _ _ (cu_ok _ _ _ _ F))|exact Lq]. }
  assert (G : exists ds' ids, query_get grow ix fuel q ds = Ok ds' /\ docs_keys ds' = map (place_of (all_docs ss)) ids /\ incl ids (carriers (word_hash u) k m n 0 wss q)).
  { destruct ds as [[len back]|].
    - destruct Fr as [-> _]. pose proof (get_limited grow ix (place_of (all_docs ss)) n _ I q 0 back (Nat.le_0_l _) fuel Lc) as G. rewrite Eb, Nat.sub_0_r in G.
      eexists _, _. split; [exact G|]. unfold docs_keys. cbn [docs_list]. split; [|intros x Hx; rewrite <- (firstn_skipn (List.length back)); apply in_or_app; left; exact Hx].
      pose proof (store_keys grow (map (place_of (all_docs ss)) (firstn (List.length back) (carriers (word_hash u) k m n 0 wss q))) 0 back) as X.
      rewrite map_length in X. cbn [Nat.add firstn map app] in X. apply X. rewrite firstn_length. apply Nat.le_min_l.
    - destruct (get_unlimited grow ix (place_of (all_docs ss)) n _ I q fuel Lc) as (ds' & G & _ & L). rewrite Eb in L. exists ds', (carriers (word_hash u) k m n 0 wss q). split; [exact G|]. split; [|intros x Hx; exact Hx].
      unfold docs_keys. rewrite L, map_map. apply map_ext. intros d. destruct (place_of (all_docs ss) d) as [[p s] e]. reflexivity. }
  destruct G as (ds' & ids & G & Ek & Inc). exists ds'. split; [exact G|]. intros d Hd.
  assert (Nt : d_dat d = []).
  { pose proof (kept_no_text (MkEntry e0 ds) (MkEntry e0 ds') Fr (C79_get _ _ _ _ _ _ G)) as Nt. unfold no_text in Nt. rewrite Forall_forall in Nt. exact (Nt d Hd). }
  assert (Hk : In (doc_key d) (map (place_of (all_docs ss)) ids)) by (rewrite <- Ek; apply in_map, Hd). apply in_map_iff in Hk. destruct Hk as (id & Ep & Hid).
  destruct (found u c k m n F (all_docs ss) wss fs Ww P q id d (Inc id Hid) (eq_sym Ep) Nt) as (i & cwd & x & s & e & d' & -> & Ex & R). exists i, cwd, x, s, e, d'. split; [exact Ex|]. split; [symmetry; exact Ep|exact R].
Qed.
Theorem C79_next_partial : forall u c k m n sorted, cfg_full c k m n -> sorts sorted ->
  forall ss dk wss fs, history u c ss dk -> docs_fit (all_docs ss) -> words_of (word_char u) (all_docs ss) wss -> in_place fs (all_docs ss) ->
  exists ix, open_index sorted dk = Ok ix /\
  forall grow fuel st out e d, (List.length (all_docs ss) < fuel)%nat -> queried grow ix fuel (Forall fresh) st out -> In e out -> In d (docs_list (be_docs e)) ->
    exists i cwd x s z d', nth_error (all_docs ss) i = Some (cwd, x) /\ doc_key d = place_of (all_docs ss) (N.of_nat (Datatypes.S i)) /\
      search u fs c (be_blot e) d = Ok (s, z, d') /\ d_dat d' = d_dat x /\ d_start x <= s /\ s <= z /\ z <= d_start x + nlen (d_dat x).
Proof.
  intros u c k m n sorted F So ss dk wss fs Hi Fit Ww P. destruct (opened u c k m n sorted F So ss dk wss Hi Fit Ww) as (ix & E & I). exists ix. split; [exact E|].
  intros grow fuel st out e d Lf Q He Hd.
  assert (Lh : forall s b, (s < n)%nat -> (b < num_slots)%nat -> (List.length (held (word_hash u) k m n wss s b) < fuel)%nat).
  { intros s b _ _. unfold held. pose proof (carriers_len (word_hash u) k m n (N.of_nat b * N.of_nat n + N.of_nat s) wss 0). pose proof (words_of_len _ _ _ Ww). clear - Lf H H0. lia. }
  pose proof (queried_no_text grow ix fuel st out Q) as Nt. rewrite Forall_forall in Nt. specialize (Nt e He). unfold no_text in Nt. rewrite Forall_forall in Nt. specialize (Nt d Hd).
  pose proof (limited_sound grow ix (place_of (all_docs ss)) n _ I fuel Lh st out (queried_weaken grow ix fuel _ _ fresh_emptied st out Q)) as X.
  rewrite Forall_forall in X. destruct (X e He) as (L & pre & mid & post & Em & _ & Ek).
  rewrite at_blot_held in Em; [|exact (co_n _ _ _ _ (cu_ok _ _ _ _ F))|exact L].
  assert (Hk : In (doc_key d) (map (place_of (all_docs ss)) mid)) by (rewrite <- Ek; apply in_map, Hd). apply in_map_iff in Hk. destruct Hk as (id & Ep & Hid).
  assert (Hc : In id (carriers (word_hash u) k m n 0 wss (be_blot e))) by (rewrite Em; apply in_or_app; right; apply in_or_app; left; exact Hid).
  destruct (found u c k m n F (all_docs ss) wss fs Ww P (be_blot e) id d Hc (eq_sym Ep) Nt) as (i & cwd & x & s & z & d' & -> & Ex & R). exists i, cwd, x, s, z, d'. split; [exact Ex|]. split; [symmetry; exact Ep|exact R].
Qed.
Print Assumptions C79_stale_refuted.
Print Assumptions C79_get.
Print Assumptions C79_next.
Print Assumptions C79_get_partial.
Print Assumptions C79_next_partial.
(** The documents of C26's example, in place, and fresh entries. *)
Example C79_example : in_place like_files (all_docs [wit_docs]) /\ Forall fresh [MkEntry 0 None; MkEntry 0 (Some (0%nat, repeat zero_doc 3))].
Proof.
  split; [|repeat constructor].
  intros i cwd x E. change (all_docs [wit_docs]) with wit_docs in *. destruct (wit_place i cwd x E) as (A & B & C). rewrite A. split; [exact B|exact C].
Qed.

(** C80: what Load gives, for every range. *)
Theorem C80_load : forall fs path content start end_, fs path = Some content -> start < 2 ^ 32 -> end_ < 2 ^ 32 ->
  (start = 0 -> end_ = 0 -> doc_load fs path start end_ = Ok (MkDoc path 0 (nlen content mod 2 ^ 32) content)) /\
  (start < end_ -> end_ <= nlen content -> doc_load fs path start end_ = Ok (MkDoc path start end_ (between content start end_))) /\
  (start < end_ -> nlen content < end_ -> doc_load fs path start end_ = Err EOther) /\
  (0 < start -> start = end_ -> doc_load fs path start end_ = Ok (MkDoc path start end_ [])) /\
  (end_ < start -> nlen content < end_ + 2 ^ 32 -> doc_load fs path start end_ = Err EOther).
Proof.
  intros fs path content start end_ E Ls Le. split; [intros -> ->; apply load_whole, E|]. split; [intros; apply load_range; auto|]. split; [intros; apply (load_short fs path content E); auto|].
  split; [intros L <-; apply (load_empty fs path content E); auto|]. intros; apply (load_backwards fs path content E); auto.
Qed.
(** What the index command adds for a file, anywhere below its arguments, loads as it was
    indexed if and only if the file has fewer than 2^32 bytes or a multiple of that; of other
    files the first bytes are loaded, as many as the length modulo 2^32 says. *)
Theorem C80_index : forall add_ok fixed t path docs err docs', good_tree t -> do_path add_ok fixed (Some t) path docs = (err, docs') ->
  exists news, docs' = docs ++ news /\ forall d, In d news -> forall fs abs, fs abs = Some (d_dat d) ->
    exists d', doc_load fs abs (d_start d) (d_end d) = Ok d' /\
      (d_dat d' = d_dat d <-> nlen (d_dat d) < 2 ^ 32 \/ nlen (d_dat d) mod 2 ^ 32 = 0) /\
      (nlen (d_dat d) < 2 ^ 32 -> d' = MkDoc abs 0 (nlen (d_dat d)) (d_dat d)) /\
      (nlen (d_dat d) mod 2 ^ 32 <> 0 -> nlen (d_dat d') = nlen (d_dat d) mod 2 ^ 32).
Proof.
  intros add_ok fixed t path docs err docs' G E. destruct (do_path_spec add_ok fixed (bs "/") t path docs err docs' G E) as (news & H1 & _ & H3 & _).
  exists news. split; [exact H1|]. intros d Hd fs abs Ef. destruct (H3 d Hd) as (cs & dat & _ & _ & (_ & Ed & Es & Ee)). rewrite Es, Ee, <- Ed. apply load_file, Ef.
Qed.
(** So C80 fails: some file is indexed whole and loaded as four bytes. *)
Theorem C80_large_refuted : exists content d,
  (forall add_ok fixed, add_ok (bs "big") = true -> do_paths add_ok fixed (fun _ => Some (Leaf (Reads content))) [bs "big"] (false, []) = (false, [d])) /\
  d_dat d = content /\
  forall fs abs, fs abs = Some content -> exists d', doc_load fs abs (d_start d) (d_end d) = Ok d' /\ d_dat d' <> d_dat d /\ nlen (d_dat d') = 4.
Proof.
  set (content := repeat 97 (N.to_nat 4294967300)).
  assert (Ln : nlen content = 4294967300) by (unfold content, nlen; rewrite repeat_length; apply N2Nat.id). clearbody content.
  assert (Lm : nlen content mod 2 ^ 32 = 4) by (rewrite Ln; reflexivity).
  exists content, (MkDoc (bs "big") 0 (u32 (nlen content)) content). split; [|split; [reflexivity|]].
  - intros add_ok fixed Ha. unfold do_paths, do_path. cbn [walk_dir]. unfold walk_fn_leaf. change (hidden (base_name (bs "big"))) with false. rewrite Ha. reflexivity.
  - intros fs abs Ef. cbn [d_start d_end d_dat]. destruct (load_file fs abs content Ef) as (d' & E & A & _ & B). exists d'. rewrite Lm in *. split; [rewrite <- E; f_equal; exact Lm|]. split.
    + intros Eq. apply A in Eq. destruct Eq as [Eq|Eq]; [rewrite Ln in Eq; discriminate Eq|discriminate Eq].
    + apply B. discriminate.
Qed.
(** Documents that start and end at 0 stand for whole files; a range that is empty there, or
    one that ends before it starts, is not read back as such. *)
Theorem C80_zero_refuted : forall fs path content, fs path = Some content -> content <> [] ->
  exists d, doc_load fs path 0 0 = Ok d /\ d_dat d <> between content 0 0 /\ d_dat d = content.
Proof. intros fs path content E Ne. eexists. split; [apply load_whole, E|]. cbn [d_dat]. split; [exact Ne|reflexivity]. Qed.
(** NewDoc makes such a document: it is loaded as it was indexed if it is the whole file. *)
Theorem C80_new_doc_partial : forall fs path body, fs path = Some body ->
  exists d, doc_load fs path (d_start (new_doc path body)) (d_end (new_doc path body)) = Ok d /\ d_dat d = body.
Proof. intros fs path body E. eexists. split; [apply load_whole, E|reflexivity]. Qed.
(** After any history: documents that are in place are loaded as they were indexed, from
    where a query says they are. *)
Theorem C80_history_partial : forall ss fs, in_place fs (all_docs ss) ->
  forall i cwd x, nth_error (all_docs ss) i = Some (cwd, x) -> let '(path, start, end_) := place_of (all_docs ss) (N.of_nat (Datatypes.S i)) in
  exists d, doc_load fs path start end_ = Ok d /\ d_dat d = d_dat x.
Proof.
  intros ss fs P i cwd x E. destruct (P i cwd x E) as [_ If]. destruct (place_of (all_docs ss) (N.of_nat (Datatypes.S i))) as [[path start] end_].
  destruct (in_file_load fs path start end_ (d_dat x) If) as (d & A & B & _). eauto.
Qed.
Print Assumptions C80_load.
Print Assumptions C80_index.
Print Assumptions C80_large_refuted.
Print Assumptions C80_zero_refuted.
Print Assumptions C80_new_doc_partial.
Print Assumptions C80_history_partial.
(** A small file is added and loaded. *)
Example C80_example : good_tree (Leaf (Reads (bs "text"))) /\
  do_path (fun _ => true) false (Some (Leaf (Reads (bs "text")))) (bs "d") [] = (false, [MkDoc (bs "d") 0 4 (bs "text")]) /\
  doc_load (fun _ => Some (bs "text")) (bs "/d") 0 4 = Ok (MkDoc (bs "/d") 0 4 (bs "text")) /\
  doc_load (fun _ => Some (bs "text")) (bs "/d") 1 3 = Ok (MkDoc (bs "/d") 1 3 (bs "ex")) /\
  in_place (fun _ => Some (bs "text")) (all_docs [[(bs "/", new_doc (bs "d") (bs "text")); (bs "/", MkDoc (bs "d") 1 3 (bs "ex"))]]).
Proof.
  split; [constructor|]. split; [reflexivity|]. split; [reflexivity|]. split; [reflexivity|].
  intros [|[|[|i]]] cwd x E; try discriminate; injection E as <- <-; (split; [vm_compute; reflexivity|]).
  - exists (bs "text"), [], []. split; [reflexivity|]. split; [reflexivity|]. left. vm_compute. auto.
  - exists (bs "text"), (bs "t"), (bs "t"). split; [reflexivity|]. split; [reflexivity|]. right. vm_compute. auto.
Qed.
