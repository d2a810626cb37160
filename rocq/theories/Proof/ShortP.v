(** Reading an index whose files have been cut short. *)
From Verif Require Import Model.Base Model.Varint Model.Utf8 Model.Token Model.Blotter Model.Post Model.Address Model.Poster Model.Shard Model.Dmd Model.Fnames Model.Config Model.Json Model.Run Model.Index Model.Query Model.Session Model.Crash Model.Extract Spec.Text Spec.Configs Spec.Shortened Proof.Tactics Proof.CutP Proof.CrashP Proof.JsonP2 Proof.ConfigP Proof.ExtractP.
Local Open Scope N_scope.

(** * One file *)
Lemma pread_cut f t off n : pread f off n = pread (f ++ t) off n \/ pread f off n = Err EOF.
Proof.
  unfold pread. destruct (off <? 0)%Z eqn:E0; [left; reflexivity|]. destruct (n <=? 0)%Z eqn:E1; [left; reflexivity|].
  apply Z.ltb_ge in E0. apply Z.leb_gt in E1. unfold zlen. rewrite app_length.
  destruct (Z.leb_spec (off + n) (Z.of_nat (length f))) as [L|L]; [left|right; reflexivity].
  destruct (Z.leb_spec (off + n) (Z.of_nat (length f + length t))) as [L2|L2]; [|lia]. f_equal.
  rewrite skipn_app, firstn_app. rewrite skipn_length. replace (Z.to_nat n - _)%nat with 0%nat by lia. cbn [firstn]. rewrite app_nil_r. reflexivity.
Qed.
Lemma varint_at_cut f t p k : forall n buf, read_varint_at_aux k f p n buf = read_varint_at_aux k (f ++ t) p n buf \/
  read_varint_at_aux k f p n buf = Err EOF.
Proof.
  induction k as [|k IH]; intros n buf; cbn [read_varint_at_aux]; [left; reflexivity|].
  destruct (pread_cut f t (p + n) 1) as [->| ->]; [|right; reflexivity].
  destruct (pread (f ++ t) (p + n) 1) as [b|e| |]; cbn [bind]; try (left; reflexivity).
  destruct (match b with [] => false | c :: _ => c <? 128 end); [left; reflexivity|]. apply IH.
Qed.
Lemma read_next_cut f t p : read_next p f = read_next p (f ++ t) \/ read_next p f = Err EOther.
Proof.
  unfold read_next, read_varint_at. destruct (varint_at_cut f t (r_nextpos p) max_varint_len64 0 []) as [->| ->]; [|right; reflexivity].
  destruct (wrap_err (read_varint_at_aux _ (f ++ t) _ _ _)) as [[v n]|e| |]; cbn [bind]; try (left; reflexivity).
  destruct (_ || _); [left; reflexivity|]. destruct (pread_cut f t (r_nextpos p + n) v) as [->| ->]; [left|right]; reflexivity.
Qed.
Lemma posts_next_cut f t p : posts_next p f = posts_next p (f ++ t) \/ posts_next p f = Err EOther.
Proof.
  unfold posts_next. destruct (_ =? _)%nat; [|left; reflexivity]. destruct (_ =? _)%Z; [left; reflexivity|].
  destruct (read_next_cut f t p) as [->| ->]; [left|right]; reflexivity.
Qed.
Lemma lookup_cut f t did : dmd_lookup f did = dmd_lookup (f ++ t) did \/ t <> [] /\ exists e, dmd_lookup f did = Err e.
Proof.
  destruct t as [|b t]; [left; rewrite app_nil_r; reflexivity|]. unfold dmd_lookup, read_full.
  destruct (pread_cut f (b :: t) (Z.of_N did * 12) 12) as [E|E].
  - destruct (pread f (Z.of_N did * 12) 12) as [x|e| |] eqn:P; rewrite <- ?E; try (left; reflexivity).
    destruct e; [|left; reflexivity]. right. split; [discriminate|]. destruct (_ <? zlen f)%Z; cbn [bind]; eexists; reflexivity.
  - rewrite E. right. split; [discriminate|]. destruct (_ <? zlen f)%Z; cbn [bind]; eexists; reflexivity.
Qed.

(** * An open index *)
Record cut_index (t : bytes) (ix ix' : index) : Prop := {
  ci_cfg : ix_cfg ix' = ix_cfg ix;
  ci_fnames : ix_fnames ix' = ix_fnames ix;
  ci_dmd : ix_dmd ix = ix_dmd ix' ++ t;
  ci_shards : Forall2 (fun s s' => si_heads s' = si_heads s /\ si_counts s' = si_counts s /\ si_perm s' = si_perm s /\
    exists r, si_file s = si_file s' ++ r) (ix_shards ix) (ix_shards ix') }.

Section Cut.
  Variables (grow : nat -> nat) (t : bytes) (ix ix' : index).
  Hypothesis C : cut_index t ix ix'.
  (** What reading the shorter files gives instead of [r]. *)
  Definition less {A} (r' r : result A) : Prop := r' = r \/ r' = Err EOther \/ t <> [] /\ r' = Err EOF.

  Lemma less_err {A} (r : result A) e : t <> [] -> less (Err e) r.
  Proof. intros N0. right. destruct e; [right; auto|left; reflexivity]. Qed.
  Lemma doc_cut did : less (docid2doc ix' did) (docid2doc ix did).
  Proof.
    unfold docid2doc. rewrite (ci_dmd _ _ _ C), (ci_fnames _ _ _ C). destruct (lookup_cut (ix_dmd ix') t did) as [->|(N0 & e & ->)]; [left; reflexivity|].
    apply less_err, N0.
  Qed.
  Lemma shard_cut i s : nth_error (ix_shards ix) i = Some s -> exists s' r, nth_error (ix_shards ix') i = Some s' /\
    si_heads s' = si_heads s /\ si_counts s' = si_counts s /\ si_perm s' = si_perm s /\ si_file s = si_file s' ++ r.
  Proof.
    generalize (ci_shards _ _ _ C). generalize (ix_shards ix) (ix_shards ix'). intros l l' Hl. revert i.
    induction Hl as [|a b l l' (A1 & A2 & A3 & r & A4) Hl IH]; intros [|i] E; cbn [nth_error] in *; try discriminate; [|exact (IH i E)].
    injection E as <-. exists b, r. auto.
  Qed.
  Lemma shard_none i : nth_error (ix_shards ix) i = None -> nth_error (ix_shards ix') i = None.
  Proof. rewrite !nth_error_None, (Forall2_len _ _ _ (ci_shards _ _ _ C)). auto. Qed.
  Lemma shards_len : nlen (ix_shards ix') = nlen (ix_shards ix).
  Proof. unfold nlen. rewrite (Forall2_len _ _ _ (ci_shards _ _ _ C)). reflexivity. Qed.

  Lemma get_cut fuel f r lim : forall ps ds, less (get_loop grow ix' fuel lim f ps ds) (get_loop grow ix fuel lim (f ++ r) ps ds).
  Proof.
    induction fuel as [|k IH]; intros ps ds; cbn [get_loop]; [left; reflexivity|]. destruct (lim && _); [left; reflexivity|].
    destruct (posts_next_cut f r ps) as [->| ->]; [|right; left; reflexivity]. destruct (posts_next ps (f ++ r)) as [[did ps']|[]| |]; try (left; reflexivity).
    destruct (doc_cut did) as [->|[->|[N0 ->]]]; [|right; left; reflexivity|apply less_err, N0].
    destruct (docid2doc ix did) as [[[p s] e]| | |]; cbn [bind]; try (left; reflexivity).
    destruct (put_doc grow lim ds p s e); cbn [bind]; try (left; reflexivity). apply IH.
  Qed.
  Theorem query_get_cut fuel blot ds : less (query_get grow ix' fuel blot ds) (query_get grow ix fuel blot ds).
  Proof.
    unfold query_get. rewrite shards_len. destruct (get_address _ blot) as [[sh sb]| | |]; cbn [bind]; try (left; reflexivity).
    destruct (nth_error (ix_shards ix) (N.to_nat sh)) as [s|] eqn:E; [|rewrite (shard_none _ E); left; reflexivity].
    destruct (shard_cut _ _ E) as (s' & r & -> & H1 & H2 & _ & H3). unfold read_state_for, read_state_for_blot_at. cbn [rs_posts].
    rewrite H1, H3. apply get_cut.
  Qed.

  Lemma state_at_cut i s : nth_error (ix_shards ix) i = Some s -> exists s', nth_error (ix_shards ix') i = Some s' /\ forall j, read_state_at s' j = read_state_at s j.
  Proof.
    intros E. destruct (shard_cut _ _ E) as (s' & r & E' & H1 & H2 & H3 & _). exists s'. split; [exact E'|]. intros j.
    unfold read_state_at, read_state_for_blot_at. rewrite H1, H2, H3. reflexivity.
  Qed.
  Lemma start_cut : start_query ix' = start_query ix.
  Proof.
    unfold start_query. rewrite shards_len. f_equal. f_equal.
    generalize (ci_shards _ _ _ C). generalize (ix_shards ix) (ix_shards ix'). induction 1 as [|a b l l' (A1 & A2 & A3 & _) Hl IH]; [reflexivity|].
    cbn [map]. rewrite IH. unfold read_state_at, read_state_for_blot_at. rewrite A1, A2, A3. reflexivity.
  Qed.
  Lemma advance_cut q src pos : advance ix' q src pos = advance ix q src pos.
  Proof.
    unfold advance. destruct (_ =? 65535); [reflexivity|]. destruct (_ <=? 1); [reflexivity|].
    destruct (nth_error (ix_shards ix) pos) as [s|] eqn:E; [|rewrite (shard_none _ E); reflexivity].
    destruct (state_at_cut _ _ E) as (s' & -> & ->). reflexivity.
  Qed.
  Lemma fill_cut fuel f r lim : forall ps ds, less (fill_loop grow ix' fuel lim f ps ds) (fill_loop grow ix fuel lim (f ++ r) ps ds).
  Proof.
    induction fuel as [|k IH]; intros ps ds; cbn [fill_loop]; [left; reflexivity|]. destruct (lim && _); [left; reflexivity|].
    destruct (posts_next_cut f r ps) as [->| ->]; [|right; left; reflexivity]. destruct (posts_next ps (f ++ r)) as [[did ps']|[]| |]; try (left; reflexivity).
    destruct (doc_cut did) as [->|[->|[N0 ->]]]; [|right; left; reflexivity|apply less_err, N0].
    destruct (docid2doc ix did) as [[[p s] e]| | |]; cbn [bind]; try (left; reflexivity).
    destruct (put_doc grow lim ds p s e); cbn [bind]; try (left; reflexivity). apply IH.
  Qed.
  Lemma fill_blot_cut fuel q dst src pos : less (fill_blot grow ix' fuel q dst src pos) (fill_blot grow ix fuel q dst src pos).
  Proof.
    unfold fill_blot. destruct (nth_error (ix_shards ix) pos) as [s|] eqn:E; [|rewrite (shard_none _ E); left; reflexivity].
    destruct (shard_cut _ _ E) as (s' & r & -> & _ & _ & _ & ->).
    destruct (fill_cut fuel (si_file s') r (negb (is_nil (be_docs dst))) (rs_posts src) (be_docs dst)) as [->|[->|[N0 ->]]];
      [|right; left; reflexivity|apply less_err, N0].
    left. destruct (fill_loop _ _ _ _ _ _ _) as [[[ds ps] eof]| | |]; cbn [bind]; try reflexivity. rewrite advance_cut. reflexivity.
  Qed.
  Lemma next_iter_cut fuel rn : less (next_iter grow ix' fuel rn) (next_iter grow ix fuel rn).
  Proof.
    unfold next_iter. destruct (nth_error (r_dst rn) (r_n rn)) as [en|]; [|left; reflexivity].
    destruct (nth_error (q_states (r_q rn)) _) as [[rs|]|]; [|left; reflexivity|left; reflexivity].
    destruct (fill_blot_cut fuel (r_q rn) en rs (N.to_nat (q_i (r_q rn)))) as [->|[->|[N0 ->]]]; [|right; left; reflexivity|apply less_err, N0].
    left. destruct (fill_blot _ _ _ _ _ _) as [[e q]| | |]; cbn [bind]; try reflexivity. rewrite advance_cut. reflexivity.
  Qed.
  Lemma next_cut fuel k : forall rn, less (next_loop grow ix' fuel k rn) (next_loop grow ix fuel k rn).
  Proof.
    induction k as [|k IH]; intros rn; cbn [next_loop]; [left; reflexivity|].
    destruct (next_iter_cut fuel rn) as [->|[->|[N0 ->]]]; [|right; left; reflexivity|apply less_err, N0].
    destruct (next_iter grow ix fuel rn) as [[r []]| | |]; cbn [bind]; try (left; reflexivity). apply IH.
  Qed.
  (** Next: the same, or an error. *)
  Theorem query_next_cut fuel k q dst : less (query_next grow ix' fuel k q dst) (query_next grow ix fuel k q dst).
  Proof. apply next_cut. Qed.
  (** extract: prints a first part of what it should; when it says that it is done, this is
      all, unless the table of documents is shorter. *)
  Theorem extract_cut js T fuel k calls : forall q b out e, extract_steps grow ix js T fuel k calls q b = (out, e) ->
    exists out' rest e', extract_steps grow ix' js T fuel k calls q b = (out', e') /\ out = out' ++ rest /\
      (rest = [] /\ e' = e \/ e' = Err EOther \/ t <> [] /\ e' = Ok tt).
  Proof.
    induction calls as [|calls IH]; intros q b out e E; cbn [extract_steps] in *.
    { injection E as <- <-. exists [], [], Loop. auto. }
    destruct (query_next_cut fuel k q [MkEntry b None]) as [->|[->|[N0 ->]]].
    2: { exists [], out, (Err EOther). split; [reflexivity|]. split; [reflexivity|]. auto. }
    2: { exists [], out, (Ok tt). split; [reflexivity|]. split; [reflexivity|]. auto. }
    destruct (query_next grow ix fuel k q [MkEntry b None]) as [[r eof]|[]| |];
      try (injection E as <- <-; eexists [], [], _; split; [reflexivity|auto]; fail).
    destruct eof; [injection E as <- <-; eexists [], [], _; split; [reflexivity|auto]|].
    destruct (_ =? 0)%nat; [injection E as <- <-; eexists [], [], _; split; [reflexivity|auto]|].
    destruct (r_dst r) as [|en l]; [injection E as <- <-; eexists [], [], _; split; [reflexivity|auto]|].
    destruct (_ <? T)%Z; [injection E as <- <-; eexists [], [], _; split; [reflexivity|auto]|].
    destruct (extract_steps grow ix js T fuel k calls (r_q r) (be_blot en)) as [o e1] eqn:E1. injection E as <- <-.
    destruct (IH _ _ _ _ E1) as (o' & rest & e' & -> & -> & H). destruct (js || _).
    - exists (en :: o'), rest, e'. auto.
    - exists o', rest, e'. auto.
  Qed.
End Cut.

(** * Opening *)
Lemma shard_open_cut sorted iix t pos r s : shard_open sorted (iix ++ t) (pos ++ r) = Ok s ->
  (exists s', shard_open sorted iix pos = Ok s' /\ si_heads s' = si_heads s /\ si_counts s' = si_counts s /\ si_perm s' = si_perm s /\ si_file s = si_file s' ++ r) \/
  exists e, shard_open sorted iix pos = Err e.
Proof.
  unfold shard_open. rewrite !read_table_r_spec. generalize num_slots. intros nn. destruct (read_table_r nn (iix ++ t)) as [[tb r1]| | |] eqn:E; try discriminate.
  destruct (table_cut nn iix t _ _ E) as [(p & -> & ->)|(e & ->)]; cbn [bind]; [|right; eauto]. intros H. injection H as <-. left.
  eexists. split; [reflexivity|]. auto.
Qed.
Lemma for_files_cut {A} (f : bytes -> bytes -> result A) (R : A -> A -> Prop) :
  (forall iix t pos r s, f (iix ++ t) (pos ++ r) = Ok s -> (exists s', f iix pos = Ok s' /\ R s s') \/ exists e, f iix pos = Err e) ->
  forall old n new xs, for_shards f n old = Ok xs ->
  Forall2 (fun o f => cut_from (fst o) (fst f) /\ cut_from (snd o) (snd f)) (map some_pair old) new ->
  (exists xs', for_files f n new = Ok xs' /\ Forall2 R xs xs') \/ exists e, for_files f n new = Err e.
Proof.
  intros HC. induction old as [|[iix pos] old IH]; intros n new xs E F2; cbn [map] in F2; inversion F2 as [|a b l l' [H1 H2] F3]; subst.
  - destruct n; cbn [for_shards for_files] in *; [|discriminate]. injection E as <-. left. exists []. split; [reflexivity|constructor].
  - destruct n as [|n]; cbn [for_shards for_files] in *. { injection E as <-. left. exists []. split; [reflexivity|constructor]. }
    destruct b as [[bi|] [bp|]]; cbn [fst snd some_pair cut_from] in *; try (right; eexists; reflexivity).
    destruct H1 as [t1 H1], H2 as [t2 H2]. injection H1 as ->. injection H2 as ->.
    destruct (f (bi ++ t1) (bp ++ t2)) as [s| | |] eqn:Es; try discriminate. cbn [bind] in E.
    destruct (for_shards f n old) as [ys| | |] eqn:Ey; try discriminate. cbn [bind] in E. injection E as <-.
    destruct (HC bi t1 bp t2 s Es) as [(s' & -> & A1)|(e & ->)]; cbn [bind]; [|right; eexists; reflexivity].
    destruct (IH n l' ys Ey F3) as [(xs' & -> & Fx)|(e & ->)]; cbn [bind]; [left|right; eexists; reflexivity].
    exists (s' :: xs'). split; [reflexivity|]. constructor; assumption.
Qed.
Definition cut_shard (s s' : shard_index) : Prop :=
  si_heads s' = si_heads s /\ si_counts s' = si_counts s /\ si_perm s' = si_perm s /\ exists r, si_file s = si_file s' ++ r.
Lemma shards_open_cut sorted old n new xs : for_shards (shard_open sorted) n old = Ok xs ->
  Forall2 (fun o f => cut_from (fst o) (fst f) /\ cut_from (snd o) (snd f)) (map some_pair old) new ->
  (exists xs', for_files (shard_open sorted) n new = Ok xs' /\ Forall2 cut_shard xs xs') \/ exists e, for_files (shard_open sorted) n new = Err e.
Proof.
  apply for_files_cut. intros iix t pos r s E. destruct (shard_open_cut sorted iix t pos r s E) as [(s' & E' & A1 & A2 & A3 & A4)|X]; [left|right; exact X].
  exists s'. split; [exact E'|]. unfold cut_shard. eauto.
Qed.
Lemma config_cut c pre post : cfg_values c -> consistent c -> config_write None c = pre ++ post ->
  Json.read_config (Some pre) = Ok c \/ Json.read_config (Some pre) = Err EOther.
Proof.
  intros V Co E. assert (W : config_write None c = marshal c ++ [10]).
  { rewrite write_is. cbn [content]. rewrite skipn_nil. reflexivity. }
  destruct post as [|x post] using rev_ind.
  - rewrite app_nil_r in E. subst pre. left. apply read_back_short; auto. cbn [content length]. lia.
  - clear IHpost. rewrite W, app_assoc in E. apply app_inj_tail in E. destruct E as [E _]. apply or_comm.
    apply (cfg_cut c pre V Co). rewrite E. replace pre with (pwrite [] 0 pre) at 3; [apply cut_in|].
    unfold pwrite. cbn [firstn length Nat.sub repeat app]. rewrite skipn_nil, app_nil_r. reflexivity.
Qed.
Theorem open_shortened sorted c dk fs ix dirs : cfg_values c -> consistent c -> open_index sorted dk = Ok ix -> ix_cfg ix = c -> k_cfg dk = Some c ->
  shortened (files_of dk) fs -> dirs (cf_root c) = fs ->
  (exists e, open_files sorted dirs (cf_root c) = Err e) \/
  exists ix' d t, open_files sorted dirs (cf_root c) = Ok ix' /\ w_dmd fs = Some d /\ k_dmd dk = Some (d ++ t) /\ ix_dmd ix' = d /\ cut_index t ix ix'.
Proof.
  intros V Co E Ec Kc [S1 S2 S3 S4] Ed. unfold open_files. rewrite Ed. unfold files_of in *. cbn [w_cfg w_dmd w_fnames w_shards] in *. rewrite Kc in S1. cbn [option_map] in S1.
  unfold open_index, read_config in E. rewrite Kc in E. destruct (cfg_check c) as [[]| | |]; try discriminate. cbn [bind] in E.
  destruct (w_cfg fs) as [bc|]; [|left; eexists; reflexivity]. destruct S1 as [tc S1].
  destruct (config_cut c bc tc V Co ltac:(congruence)) as [->| ->]; cbn [bind]; [|left; eauto].
  rewrite Ed. destruct (w_dmd fs) as [bd|] eqn:Wd; [|left; eexists; reflexivity]. destruct S2 as [td S2]. rewrite S2 in E. cbn [read_some bind] in *.
  destruct (w_fnames fs) as [bf|]; [|left; eexists; reflexivity]. destruct S3 as [tf S3]. rewrite S3 in E. cbn [read_some bind] in *.
  destruct (read_fnames (bf ++ tf)) as [fn| | |] eqn:Ef; try discriminate. cbn [bind] in E.
  destruct (fnames_cut _ _ _ Ef) as [->|[e ->]]; cbn [bind]; [|left; eauto].
  destruct (cf_numshards c <? 0)%Z; [discriminate|].
  destruct (for_shards (shard_open sorted) (Z.to_nat (cf_numshards c)) (k_shards dk)) as [xs| | |] eqn:Ex; try discriminate. cbn [bind] in E. injection E as <-.
  destruct (shards_open_cut sorted _ _ _ _ Ex S4) as [(xs' & -> & Fx)|(e & ->)]; cbn [bind]; [right|left; eauto].
  eexists _, bd, td. split; [reflexivity|]. split; [reflexivity|]. split; [exact S2|]. split; [reflexivity|]. split; auto.
Qed.

(** * An empty table of documents *)
Section Empty.
  Variables (grow : nat -> nat) (ix : index).
  Hypothesis D : ix_dmd ix = [].
  Lemma doc_empty did : docid2doc ix did = Err EOF.
  Proof.
    unfold docid2doc, dmd_lookup, read_full. rewrite D. unfold pread, zlen. cbn [length].
    destruct (Z.ltb_spec (Z.of_N did * 12) 0) as [L|L]; [lia|]. change (12 <=? 0)%Z with false. cbv iota.
    destruct (Z.leb_spec (Z.of_N did * 12 + 12) (Z.of_nat 0)) as [L2|L2]; [lia|].
    destruct (Z.ltb_spec (Z.of_N did * 12) (Z.of_nat 0)) as [L3|L3]; [lia|]. reflexivity.
  Qed.
  Lemma fill_empty fuel lim f ps ds ds' ps' eof : fill_loop grow ix fuel lim f ps ds = Ok (ds', ps', eof) -> ds' = ds.
  Proof.
    destruct fuel as [|k]; cbn [fill_loop]; [discriminate|]. destruct (lim && _); [congruence|].
    destruct (posts_next ps f) as [[did p]|[]| |]; try discriminate; [|congruence]. rewrite doc_empty. discriminate.
  Qed.
  Lemma next_iter_empty fuel rn rn' v : next_iter grow ix fuel rn = Ok (rn', v) -> Forall (fun e => be_docs e = None) (r_dst rn) -> r_n rn = 0%nat ->
    Forall (fun e => be_docs e = None) (r_dst rn') /\ r_n rn' = 0%nat.
  Proof.
    intros E Fe Z. unfold next_iter in E. destruct (nth_error (r_dst rn) (r_n rn)) as [en|] eqn:En; [|injection E as <- <-; auto].
    destruct (nth_error (q_states (r_q rn)) _) as [[rs|]|]; [| |discriminate].
    2: { destruct (_ =? q_n (r_q rn)) in E; injection E as <- <-; auto. }
    assert (N0 : be_docs en = None). { rewrite Forall_forall in Fe. apply Fe. eapply nth_error_In, En. }
    destruct (fill_blot grow ix fuel (r_q rn) en rs (N.to_nat (q_i (r_q rn)))) as [[e q]| | |] eqn:Eb; try discriminate. cbn [bind] in E.
    assert (be_docs e = None) as Ne.
    { unfold fill_blot in Eb. destruct (nth_error (ix_shards ix) _) as [s|]; [|discriminate].
      destruct (fill_loop grow ix fuel _ _ _ _) as [[[ds ps] eof]| | |] eqn:Ef; try discriminate. cbn [bind] in Eb.
      apply fill_empty in Ef. subst ds. destruct (if eof then _ else _) as [q1| | |]; try discriminate. cbn [bind] in Eb. injection Eb as <- <-. exact N0. }
    rewrite Ne in E. cbn [docs_len Nat.leb] in E. destruct (advance ix q rs _) as [q1| | |]; try discriminate. cbn [bind] in E. injection E as <- <-.
    cbn [r_dst r_n]. split; [|exact Z]. rewrite N0. cbn [is_nil negb]. revert Fe. generalize (r_dst rn) (r_n rn). clear.
    induction l as [|x l IH]; intros [|i] H; cbn [upd]; auto; inversion H; subst; constructor; auto.
  Qed.
  Lemma next_empty fuel k : forall rn rn' eof, next_loop grow ix fuel k rn = Ok (rn', eof) -> Forall (fun e => be_docs e = None) (r_dst rn) -> r_n rn = 0%nat -> r_n rn' = 0%nat.
  Proof.
    induction k as [|k IH]; intros rn rn' eof E Fe Z; cbn [next_loop] in E; [discriminate|].
    destruct (next_iter grow ix fuel rn) as [[r v]| | |] eqn:Ei; try discriminate. cbn [bind] in E.
    destruct (next_iter_empty _ _ _ _ Ei Fe Z) as [Fe' Z']. destruct v; [exact (IH _ _ _ E Fe' Z')| |]; injection E as <- <-; exact Z'.
  Qed.
End Empty.

(** Of all errors, only io.EOF comes from an empty table of documents. *)
Section Only_dmd.
  Variables (grow : nat -> nat) (ix ix' : index).
  Hypothesis D : ix_dmd ix' = [].
  Hypothesis Sh : ix_shards ix' = ix_shards ix.
  Definition same_or_end {A} (r' r : result A) : Prop := r' = r \/ r' = Err EOF.
  Lemma advance_same q src pos : advance ix' q src pos = advance ix q src pos.
  Proof. unfold advance. rewrite Sh. reflexivity. Qed.
  Lemma next_iter_dmd fuel rn : same_or_end (next_iter grow ix' fuel rn) (next_iter grow ix fuel rn).
  Proof.
    unfold next_iter. destruct (nth_error (r_dst rn) (r_n rn)) as [en|]; [|left; reflexivity].
    destruct (nth_error (q_states (r_q rn)) _) as [[rs|]|]; [|left; reflexivity|left; reflexivity].
    assert (Fb : same_or_end (fill_blot grow ix' fuel (r_q rn) en rs (N.to_nat (q_i (r_q rn)))) (fill_blot grow ix fuel (r_q rn) en rs (N.to_nat (q_i (r_q rn))))).
    { unfold fill_blot. rewrite Sh. destruct (nth_error (ix_shards ix) _) as [s|]; [|left; reflexivity].
      assert (Fl : forall lim f ps ds, same_or_end (fill_loop grow ix' fuel lim f ps ds) (fill_loop grow ix fuel lim f ps ds)).
      { intros lim f ps ds. destruct fuel as [|kk]; [left; reflexivity|]. cbn [fill_loop]. destruct (lim && _); [left; reflexivity|].
        destruct (posts_next ps f) as [[did ps']|[]| |]; try (left; reflexivity). rewrite (doc_empty ix' D). right. reflexivity. }
      destruct (Fl (negb (is_nil (be_docs en))) (si_file s) (rs_posts rs) (be_docs en)) as [->| ->]; [left|right; reflexivity].
      destruct (fill_loop _ _ _ _ _ _ _) as [[[ds ps] eof]| | |]; cbn [bind]; try reflexivity. rewrite advance_same. reflexivity. }
    destruct Fb as [->| ->]; [left|right; reflexivity]. destruct (fill_blot _ _ _ _ _ _) as [[e q]| | |]; cbn [bind]; try reflexivity. rewrite advance_same. reflexivity.
  Qed.
  Lemma next_dmd fuel k : forall rn, same_or_end (next_loop grow ix' fuel k rn) (next_loop grow ix fuel k rn).
  Proof.
    induction k as [|k IH]; intros rn; cbn [next_loop]; [left; reflexivity|].
    destruct (next_iter_dmd fuel rn) as [->| ->]; [|right; reflexivity].
    destruct (next_iter grow ix fuel rn) as [[r []]| | |]; cbn [bind]; try (left; reflexivity). apply IH.
  Qed.
  (** Whatever extract should print first, it prints nothing and says that it is done. *)
  Theorem extract_none js T fuel k calls o out : extract grow ix js T fuel k calls = Ok (o :: out) ->
    extract_steps grow ix' js T fuel k calls (start_query ix') 0 = ([], Ok tt).
  Proof.
    unfold extract. assert (start_query ix' = start_query ix) as -> by (unfold start_query; rewrite Sh; reflexivity). generalize (start_query ix). intros q.
    destruct calls as [|calls]; [discriminate|]. rewrite extract_loop_S. cbn [extract_steps]. unfold query_next.
    destruct (next_dmd fuel k (MkRun q [MkEntry 0 None] 0)) as [E| ->]; [|reflexivity]. rewrite E.
    destruct (next_loop grow ix fuel k (MkRun q [MkEntry 0 None] 0)) as [[r eof]|[]| |] eqn:En; try discriminate.
    apply (next_empty grow ix' D) in E; [|repeat constructor|reflexivity]. rewrite E. cbn [Nat.eqb]. destruct eof; discriminate.
  Qed.
End Only_dmd.
