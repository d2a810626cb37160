(** An index after a power failure (Model/Power). *)
From Verif Require Import Model.Base Model.Utf8 Model.Token Model.Blotter Model.Address Model.Post Model.Poster Model.Shatter Model.Shard Model.Dmd Model.Fnames Model.Conc Model.Config Model.Json Model.Run Model.Index Model.Query Model.Session Model.Crash Model.Live Model.Power.
From Verif Require Import Spec.Text Spec.Fingerprint Spec.Configs Spec.Posting Spec.Postings Spec.Paths Spec.Reading Spec.Querying Spec.History Spec.Live.
From Verif Require Import Proof.Tactics Proof.TokenP Proof.BlotterP Proof.DmdP Proof.FnamesP Proof.FnamesP2 Proof.PosterP Proof.ShardP Proof.ConcP Proof.QueryP Proof.SessionP Proof.SessionP2 Proof.KeepP Proof.CrashP Proof.CrashP2 Proof.CrashP3 Proof.LiveP.
Local Open Scope N_scope.

Lemma shards_after_nth f : forall old i new j t0 p0 t1 p1, nth_error old j = Some (t0, p0) -> nth_error new j = Some (t1, p1) ->
  nth_error (shards_after f i old new) j = Some (if f (i + j)%nat then t0 else t1, p1).
Proof.
  induction old as [|[a b] old IH]; intros i [|[a' b'] new] [|j] t0 p0 t1 p1 E0 E1; cbn [nth_error shards_after] in *; try discriminate.
  - injection E0 as <- <-. injection E1 as <- <-. rewrite Nat.add_0_r. reflexivity.
  - rewrite (IH (S i) new j t0 p0 t1 p1 E0 E1). do 2 f_equal. replace (S i + j)%nat with (i + S j)%nat by lia. reflexivity.
Qed.
Lemma shards_after_length f : forall old i new, length old = length new -> length (shards_after f i old new) = length new.
Proof. induction old as [|[a b] old IH]; intros i [|[a' b'] new] E; cbn [length shards_after] in *; try discriminate; auto. Qed.
(** Some look-up fails, and the loop with it. *)
Lemma get_loop_fails grow ix place f ids : forall fuel ps ds, reads f ps ids -> docs_wf ds -> (length ids < fuel)%nat ->
  (forall d, In d ids -> docid2doc ix d = Ok (place d) \/ docid2doc ix d = Err EOF \/ docid2doc ix d = Panic) -> (exists d, In d ids /\ docid2doc ix d <> Ok (place d)) ->
  get_loop grow ix fuel false f ps ds = Err EOF \/ get_loop grow ix fuel false f ps ds = Panic.
Proof.
  induction ids as [|d ids IH]; intros [|fuel] ps ds R W L Pl (d0 & Hd & Ed); cbn [length] in L; try lia; [destruct Hd|].
  cbn [get_loop andb reads] in *. destruct R as (r' & -> & R).
  destruct (Pl d (or_introl eq_refl)) as [E|[E|E]]; rewrite E; cbn [bind]; [|left; reflexivity|right; reflexivity]. destruct (place d) as [[p a] b] eqn:Epl.
  destruct (put_doc_free grow ds p a b W) as (ds' & Ep & W' & _). rewrite Ep. cbn [bind]. apply IH; auto; [lia|intros; apply Pl; right; assumption|].
  exists d0. split; [|exact Ed]. destruct Hd as [->|Hd]; [congruence|exact Hd].
Qed.

Lemma get_loop_eof grow ix place f ids : forall fuel ps ds, reads f ps ids -> docs_wf ds -> (length ids < fuel)%nat ->
  (forall d, In d ids -> docid2doc ix d = Ok (place d) \/ docid2doc ix d = Err EOF) -> (exists d, In d ids /\ docid2doc ix d <> Ok (place d)) ->
  get_loop grow ix fuel false f ps ds = Err EOF.
Proof.
  induction ids as [|d ids IH]; intros [|fuel] ps ds R W L Pl (d0 & Hd & Ed); cbn [length] in L; try lia; [destruct Hd|].
  cbn [get_loop andb reads] in *. destruct R as (r' & -> & R).
  destruct (Pl d (or_introl eq_refl)) as [E|E]; rewrite E; cbn [bind]; [|reflexivity]. destruct (place d) as [[p a] b] eqn:Epl.
  destruct (put_doc_free grow ds p a b W) as (ds' & Ep & W' & _). rewrite Ep. cbn [bind]. apply IH; auto; [lia|intros; apply Pl; right; assumption|].
  exists d0. split; [|exact Ed]. destruct Hd as [->|Hd]; [congruence|exact Hd].
Qed.
Lemma swap_open sorted iix pos si pos' : shard_open sorted iix pos = Ok si ->
  exists y, shard_open sorted iix pos' = Ok y /\ si_file y = pos' /\ si_heads y = si_heads si.
Proof.
  unfold shard_open. destruct (read_table num_slots iix) as [t| | |]; cbn [bind]; try discriminate. intros E. injection E as <-.
  eexists. split; [reflexivity|]. split; reflexivity.
Qed.
Lemma no_posts f h : h = (-1)%Z -> posts_next (new_posts h) f = Err EOF.
Proof. intros ->. reflexivity. Qed.

Section P.
  Variables (u : unicode) (c : config) (k m n : nat) (sorted : list N -> list nat).
  Hypothesis F : cfg_full c k m n.
  Hypothesis V : cfg_values c.
  Hypothesis Hs : sorts sorted.
  Let O : cfg_ok c k m n := cu_ok _ _ _ _ F.
  Let Hn : N.of_nat n < 65536 := cu_n _ _ _ _ F.
  Let Hfl : (1 <= cf_flush c)%Z := cu_flush _ _ _ _ F.
  Notation held wss s b := (held (word_hash u) k m n wss s b).
  Variables (docs0 : list (bytes * doc)) (wss0 : list (list bytes)) (fn0 : fnames) (fs0 : list fields) (dk : disk).
  Hypothesis D : disk_inv u c k m n docs0 wss0 fn0 fs0 dk.
  Hypothesis W0 : words_of (word_char u) docs0 wss0.
  Variables (news : list (list (bytes * doc))) (wss1 : list (list bytes)) (dk1 : disk).
  Hypothesis Si : since u dk news dk1.
  Hypothesis Fit : docs_fit (docs0 ++ all_docs news).
  Hypothesis W1 : words_of (word_char u) (all_docs news) wss1.
  Notation docs := (docs0 ++ all_docs news).
  Notation wss := (wss0 ++ wss1).
  Variables (olddmd oldnames : bool) (oldtab : nat -> bool).
  Notation dka := (disk_after olddmd oldnames oldtab dk dk1).

  Lemma index_parts dk' ix : k_cfg dk' = Some c -> open_index sorted dk' = Ok ix ->
    k_dmd dk' = Some (ix_dmd ix) /\ read_some read_fnames (k_fnames dk') = Ok (ix_fnames ix).
  Proof.
    intros Ec E. unfold open_index, read_config in E. rewrite Ec, (check_ok c k m n O Hn) in E. cbn [bind] in E.
    destruct (k_dmd dk') as [dm|]; cbn [read_some bind] in E; try discriminate.
    destruct (read_some read_fnames (k_fnames dk')) as [fn| | |]; cbn [bind] in E; try discriminate.
    destruct (_ <? 0)%Z; [discriminate|]. destruct (for_shards _ _ _); cbn [bind] in E; try discriminate. injection E as <-. split; reflexivity.
  Qed.

  (** Opening, and what is then in the shards. *)
  Lemma opens_after : exists ix ix0 ix1, open_index sorted dka = Ok ix /\ ix_cfg ix = c /\
    open_index sorted dk = Ok ix0 /\ open_index sorted dk1 = Ok ix1 /\ length (ix_shards ix) = n /\
    ix_dmd ix = ix_dmd (if olddmd then ix0 else ix1) /\ ix_fnames ix = ix_fnames (if oldnames then ix0 else ix1) /\
    forall j s, (j < n)%nat -> (s < num_slots)%nat -> exists si, nth_error (ix_shards ix) j = Some si /\
      (oldtab j = true -> held wss0 j s = [] -> posts_next (new_posts (nth s (si_heads si) (-1)%Z)) (si_file si) = Err EOF) /\
      (oldtab j = false \/ held wss0 j s <> [] -> reads (si_file si) (new_posts (nth s (si_heads si) (-1)%Z)) (held wss j s)).
  Proof.
    destruct (open_index_ok u c k m n O Hn sorted Hs _ wss0 fn0 fs0 dk D W0 (fit_app _ _ Fit)) as (ix0 & E0 & I0 & _).
    destruct (since_inv u c k m n F _ _ _ _ _ _ _ D Si W0 wss1 Fit W1) as (fn1 & fs1 & D1 & X & Hk).
    assert (Ww : words_of (word_char u) docs wss) by (apply Forall2_app; assumption).
    destruct (open_index_ok u c k m n O Hn sorted Hs _ wss fn1 fs1 dk1 D1 Ww Fit) as (ix1 & E1 & I1 & _).
    destruct (index_parts dk ix0 (di_cfg _ _ _ _ _ _ _ _ _ _ D) E0) as [Dm0 Fn0]. destruct (index_parts dk1 ix1 (di_cfg _ _ _ _ _ _ _ _ _ _ D1) E1) as [Dm1 Fn1].
    pose proof (di_shards _ _ _ _ _ _ _ _ _ _ D) as L0. pose proof (di_shards _ _ _ _ _ _ _ _ _ _ D1) as L1.
    set (P := fun j si => exists iix0 pos0 si0 iix1 pos1 si1, nth_error (k_shards dk) j = Some (iix0, pos0) /\ nth_error (k_shards dk1) j = Some (iix1, pos1) /\
      shard_open sorted iix0 pos0 = Ok si0 /\ shard_open sorted iix1 pos1 = Ok si1 /\ nth_error (ix_shards ix0) j = Some si0 /\ nth_error (ix_shards ix1) j = Some si1 /\
      si_file si = pos1 /\ si_heads si = si_heads (if oldtab j then si0 else si1)).
    destruct (for_shards_spec (shard_open sorted) P (shards_after oldtab 0 (k_shards dk) (k_shards dk1)) 0 n) as (xs & Ex & Lx & Hx).
    { rewrite shards_after_length by congruence. exact L1. }
    { intros j iix pos Ej. assert (Lj : (j < n)%nat) by (apply nth_len in Ej; rewrite shards_after_length in Ej by congruence; congruence).
      destruct (nth_shard (fun x => x) ix0 _ n _ I0 j Lj) as [si0 Es0]. destruct (nth_shard (fun x => x) ix1 _ n _ I1 j Lj) as [si1 Es1].
      destruct (open_shard c k m n sorted F dk ix0 j si0 E0 (di_cfg _ _ _ _ _ _ _ _ _ _ D) Es0) as (iix0 & pos0 & N0 & O0).
      destruct (open_shard c k m n sorted F dk1 ix1 j si1 E1 (di_cfg _ _ _ _ _ _ _ _ _ _ D1) Es1) as (iix1 & pos1 & N1 & O1).
      rewrite (shards_after_nth oldtab _ 0 _ j _ _ _ _ N0 N1) in Ej. cbn [Nat.add] in *. injection Ej as <- <-.
      assert (Y : exists y, shard_open sorted (if oldtab j then iix0 else iix1) pos1 = Ok y /\ si_file y = pos1 /\ si_heads y = si_heads (if oldtab j then si0 else si1)).
      { destruct (oldtab j).
        - exact (swap_open _ _ _ _ pos1 O0).
        - exists si1. split; [exact O1|]. split; [eapply open_file, O1|reflexivity]. }
      destruct Y as (y & Y1 & Y2 & Y3). exists y. split; [exact Y1|].
      exists iix0, pos0, si0, iix1, pos1, si1. auto 10. }
    cbn [Nat.add] in Hx.
    exists (MkIndex c (ix_dmd (if olddmd then ix0 else ix1)) (ix_fnames (if oldnames then ix0 else ix1)) xs), ix0, ix1.
    split.
    { unfold open_index, read_config, disk_after. cbn [k_cfg k_dmd k_fnames k_shards]. rewrite (di_cfg _ _ _ _ _ _ _ _ _ _ D1), (check_ok c k m n O Hn). cbn [bind].
      assert ((if olddmd then k_dmd dk else k_dmd dk1) = Some (ix_dmd (if olddmd then ix0 else ix1))) as -> by (destruct olddmd; assumption). cbn [read_some bind].
      assert (read_some read_fnames (if oldnames then k_fnames dk else k_fnames dk1) = Ok (ix_fnames (if oldnames then ix0 else ix1))) as -> by (destruct oldnames; assumption). cbn [bind].
      assert ((cf_numshards c <? 0)%Z = false) as -> by (rewrite (co_shards _ _ _ _ O); apply Z.ltb_ge; lia).
      rewrite (co_shards _ _ _ _ O), Nat2Z.id, Ex. reflexivity. }
    split; [reflexivity|].
    split; [exact E0|]. split; [exact E1|]. cbn [ix_shards ix_dmd ix_fnames]. split; [exact Lx|]. split; [reflexivity|]. split; [reflexivity|].
    intros j s Lj Ls. destruct (nth_ex xs j) as [si Es]; [lia|]. exists si. split; [exact Es|].
    destruct (Hx j si Es) as (iix0 & pos0 & si0 & iix1 & pos1 & si1 & N0 & N1 & O0 & O1 & S0 & S1 & Hfile & Hheads). rewrite Hfile, Hheads.
    destruct (open_heads _ _ _ _ O0) as (t0 & T0 & H0). destruct (open_heads _ _ _ _ O1) as (t1 & T1 & H1).
    pose proof (Hk j _ _ t0 t1 N0 N1 T0 T1) as K. pose proof (open_file _ _ _ _ O1) as F1.
    destruct (io_reads _ _ _ _ I0 j si0 S0 s Ls) as [R0 _]. destruct (io_reads _ _ _ _ I1 j si1 S1 s Ls) as [R1 _]. rewrite F1 in R1.
    split.
    - intros -> Q. apply no_posts. rewrite H0. apply (empty_heads (iix0, pos0) _ s t0 (di_closed _ _ _ _ _ _ _ _ _ _ D j _ N0) T0 Ls).
      rewrite (content_held u c k m n F docs0 wss0 j s (fit_app _ _ Fit) W0 Lj Ls). exact Q.
    - intros Q. destruct (oldtab j); [|exact R1]. destruct Q as [Q|Q]; [discriminate|].
      assert (Nh : nth s (si_heads si0) (-1)%Z <> (-1)%Z). { intros Eh. rewrite Eh in R0. apply reads_none in R0. contradiction. }
      rewrite H0 in Nh |- *. rewrite <- (kept_head t0 t1 s K Nh), <- H1. exact R1.
  Qed.

  (** The record that dmd has of a document, and what the names make of it. *)
  Definition listed (d : N) : Prop := olddmd = false \/ d <= nlen docs0.
  Definition named (p : bytes * doc) : Prop := oldnames = false \/ known docs0 p.
  Lemma listed_dec d : listed d \/ ~ listed d.
  Proof. clear. unfold listed. destruct olddmd; [|auto]. destruct (N.le_gt_cases d (nlen docs0)); [auto|]. right. intros [X|X]; [discriminate|lia]. Qed.
  Lemma named_dec p : named p \/ ~ named p.
  Proof. clear. unfold named. destruct oldnames; [|auto]. destruct (known_dec docs0 p); [auto|]. right. intros [X|X]; [discriminate|auto]. Qed.
  Lemma place_after ix ix0 ix1 d p : open_index sorted dk = Ok ix0 -> open_index sorted dk1 = Ok ix1 ->
    ix_dmd ix = ix_dmd (if olddmd then ix0 else ix1) -> ix_fnames ix = ix_fnames (if oldnames then ix0 else ix1) -> 0 < d -> doc_at docs d p ->
    (listed d -> named p -> docid2doc ix d = Ok (place_of docs d)) /\ (~ listed d -> docid2doc ix d = Err EOF) /\ (listed d -> ~ named p -> docid2doc ix d = Panic).
  Proof.
    intros E0 E1 Em Ef Hd Ep.
    destruct (since_inv u c k m n F _ _ _ _ _ _ _ D Si W0 wss1 Fit W1) as (fn1 & fs1 & D1 & X & _).
    assert (Ww : words_of (word_char u) docs wss) by (apply Forall2_app; assumption).
    destruct (open_index_ok u c k m n O Hn sorted Hs _ wss0 fn0 fs0 dk D W0 (fit_app _ _ Fit)) as (ix' & E' & _ & _ & _ & Wf0 & Sk0 & _).
    assert (ix' = ix0) as -> by congruence. clear E'.
    destruct (open_index_ok u c k m n O Hn sorted Hs _ wss fn1 fs1 dk1 D1 Ww Fit) as (ix' & E' & _ & _ & _ & Wf1 & Sk1 & _).
    assert (ix' = ix1) as -> by congruence. clear E'.
    destruct (index_parts dk ix0 (di_cfg _ _ _ _ _ _ _ _ _ _ D) E0) as [Dm0 _]. destruct (index_parts dk1 ix1 (di_cfg _ _ _ _ _ _ _ _ _ _ D1) E1) as [Dm1 _].
    rewrite (di_dmd _ _ _ _ _ _ _ _ _ _ D) in Dm0. rewrite (di_dmd _ _ _ _ _ _ _ _ _ _ D1) in Dm1. unfold dmd_file in Dm0, Dm1. injection Dm0 as Dm0. injection Dm1 as Dm1.
    assert (Rec : listed d -> exists f, dmd_lookup (ix_dmd ix) d = Ok f /\ rec_of fn1 f p).
    { intros Ld. rewrite Em. destruct olddmd eqn:Eo.
      - destruct Ld as [Ld|Ld]; [congruence|]. assert (Ep' : doc_at docs0 d p) by (unfold doc_at in *; rewrite nth_error_app1 in Ep; [exact Ep|unfold nlen in Ld; lia]).
        destruct (record_of u c k m n F _ _ _ _ _ d p D (fit_app _ _ Fit) Hd Ep') as (f & Ef' & R1 & R2 & R3). exists f. rewrite <- Dm0. split; [exact Ef'|].
        split; [exact R1|]. split; [exact R2|]. eapply extends_path; eauto.
      - destruct (record_of u c k m n F _ _ _ _ _ d p D1 Fit Hd Ep) as (f & Ef' & R). exists f. rewrite <- Dm1. auto. }
    assert (Ok_names : forall f, rec_of fn1 f p -> named p -> fn_abs (ix_fnames ix) (f_fid f) = Ok (show_abs (spec_abs (fst p) (d_path (snd p))))).
    { intros f R Np. rewrite Ef. destruct oldnames eqn:Eo.
      - destruct Np as [Np|Np]; [congruence|]. assert (X0 : extends (ix_fnames ix0) fn1) by (destruct X as [t Xt]; exists t; congruence).
        apply (proj1 (place_seen (ix_fnames ix0) fn1 docs0 f p Wf0 (di_wf _ _ _ _ _ _ _ _ _ _ D1) X0
          ltac:(intros q; rewrite (nodes_of u c k m n _ _ _ _ _ D q); split; intros [i P]; exists i; (eapply extends_path; [|exact P]); exists []; rewrite app_nil_r; congruence) R) Np).
      - destruct R as (_ & _ & R). rewrite (fn_abs_path (ix_fnames ix1) _ (parts_of (spec_abs (fst p) (d_path (snd p)))) Wf1), parts_show; [reflexivity|].
        eapply extends_path; [|exact R]. exists []. rewrite app_nil_r. congruence. }
    split; [|split].
    - intros Ld Np. destruct (Rec Ld) as (f & Ef' & R). unfold docid2doc. rewrite Ef'. cbn [bind]. rewrite (Ok_names f R Np). cbn [bind].
      destruct R as (R1 & R2 & _). unfold place_of. unfold doc_at in Ep. rewrite Ep. destruct p as [cwd x]. cbn [fst snd] in *. rewrite R1, R2. reflexivity.
    - intros Nl. unfold docid2doc. rewrite Em. destruct olddmd eqn:Eo; [|exfalso; apply Nl; left; exact Eo].
      rewrite <- Dm0, (dmd_lookup_beyond fs0 d); [reflexivity|]. pose proof (recs_len _ _ _ (di_recs _ _ _ _ _ _ _ _ _ _ D)) as Lf. unfold listed, nlen in *.
      destruct (N.le_gt_cases d (N.of_nat (length docs0))) as [L|L]; [exfalso; apply Nl; right; exact L|]. rewrite Lf. exact L.
    - intros Ld Np. destruct (Rec Ld) as (f & Ef' & R). unfold docid2doc. rewrite Ef'. cbn [bind]. rewrite Ef. destruct oldnames eqn:Eo; [|exfalso; apply Np; left; exact Eo].
      assert (X0 : extends (ix_fnames ix0) fn1) by (destruct X as [t Xt]; exists t; congruence).
      rewrite (proj2 (place_seen (ix_fnames ix0) fn1 docs0 f p Wf0 (di_wf _ _ _ _ _ _ _ _ _ _ D1) X0
          ltac:(intros q; rewrite (nodes_of u c k m n _ _ _ _ _ D q); split; intros [i P]; exists i; (eapply extends_path; [|exact P]); exists []; rewrite app_nil_r; congruence) R)); [reflexivity|].
      intros K. apply Np. right. exact K.
  Qed.

  Theorem gets_after : exists ix, open_index sorted dka = Ok ix /\ ix_cfg ix = c /\ k_cfg dka = Some c /\
    forall grow blot fuel, (length docs < fuel)%nat ->
    let ids0 := carriers (word_hash u) k m n 0 wss0 (blot mod (N.of_nat n * 65536)) in
    let ids := carriers (word_hash u) k m n 0 wss (blot mod (N.of_nat n * 65536)) in
    let lost := oldtab (QueryP.shard_of n blot) = true /\ ids0 = [] in
    (lost -> query_get grow ix fuel blot None = Ok None) /\
    (~ lost -> (forall d p, In d ids -> doc_at docs d p -> listed d /\ named p) ->
      exists ds, query_get grow ix fuel blot None = Ok ds /\ docs_keys ds = map (place_of docs) ids) /\
    (~ lost -> (exists d p, In d ids /\ doc_at docs d p /\ ~ (listed d /\ named p)) ->
      query_get grow ix fuel blot None = Err EOF \/ query_get grow ix fuel blot None = Panic) /\
    (~ lost -> (exists d p, In d ids /\ doc_at docs d p /\ ~ named p) -> (forall d, In d ids -> listed d) -> query_get grow ix fuel blot None = Panic) /\
    (~ lost -> (exists d, In d ids /\ ~ listed d) -> (forall d p, In d ids -> doc_at docs d p -> named p) -> query_get grow ix fuel blot None = Err EOF).
  Proof.
    destruct opens_after as (ix & ix0 & ix1 & Eo & Ec & E0 & E1 & Ln & Em & Ef & Sl). exists ix. split; [exact Eo|]. split; [exact Ec|].
    split; [destruct (since_inv u c k m n F _ _ _ _ _ _ _ D Si W0 wss1 Fit W1) as (fn1 & fs1 & D1 & _); exact (di_cfg _ _ _ _ _ _ _ _ _ _ D1)|].
    intros grow blot fuel Lf ids0 ids lost.
    pose proof (co_n _ _ _ _ O) as Pn.
    destruct (Sl _ _ (shard_small c k m n F blot) (slot_small n blot)) as (si & Es & A & B).
    rewrite (blot_held u c k m n F wss0) in A, B. rewrite (blot_held u c k m n F wss) in B. fold ids0 in A, B. fold ids in B.
    assert (Eq : query_get grow ix fuel blot None = get_loop grow ix fuel false (si_file si) (new_posts (nth (QueryP.slot_of n blot) (si_heads si) (-1)%Z)) None).
    { unfold query_get, get_address. assert (u32 (nlen (ix_shards ix)) = N.of_nat n) as ->. { unfold u32, nlen. rewrite Ln. apply N.mod_small. lia. }
      destruct (N.eqb_spec (N.of_nat n) 0); [lia|]. cbn [bind]. fold (QueryP.shard_of n blot). rewrite Es. reflexivity. }
    rewrite Eq.
    assert (Lids : (length ids <= length docs)%nat).
    { unfold ids. pose proof (words_of_len _ _ _ W0) as L0. pose proof (words_of_len _ _ _ W1) as L1.
      pose proof (carriers_len (word_hash u) k m n (blot mod (N.of_nat n * 65536)) wss 0) as L2. rewrite app_length in *. lia. }
    assert (Dn : forall d, In d ids -> 0 < d /\ exists p, doc_at docs d p).
    { intros d Hd. destruct (carriers_pos _ _ _ _ _ _ _ Hd) as [P1 P2]. split; [exact P1|]. apply nth_ex.
      pose proof (words_of_len _ _ _ W0) as L0. pose proof (words_of_len _ _ _ W1) as L1. rewrite app_length in *. lia. }
    assert (Rd : ~ lost -> reads (si_file si) (new_posts (nth (QueryP.slot_of n blot) (si_heads si) (-1)%Z)) ids).
    { intros Nl. apply B. unfold lost in Nl. destruct (oldtab (QueryP.shard_of n blot)); [|left; reflexivity]. right. intros Q. apply Nl. split; [reflexivity|exact Q]. }
    assert (Pl : forall d p, In d ids -> doc_at docs d p ->
      (listed d -> named p -> docid2doc ix d = Ok (place_of docs d)) /\ (~ listed d -> docid2doc ix d = Err EOF) /\ (listed d -> ~ named p -> docid2doc ix d = Panic)).
    { intros d p Hd Ep. apply (place_after ix ix0 ix1 d p E0 E1 Em Ef); [apply Dn, Hd|exact Ep]. }
    split; [|split; [|split; [|split]]].
    - intros [Q1 Q2]. destruct fuel as [|fuel]; [lia|]. cbn [get_loop andb]. rewrite (A Q1 Q2). reflexivity.
    - intros Nl Kn. destruct (get_loop_free grow ix (place_of docs) (si_file si) ids fuel _ None (Rd Nl)) as (ds & E & _ & El).
      + intros d Hd. destruct (Dn d Hd) as (Pd & p & Ep). apply (Pl d p Hd Ep); apply (Kn d p Hd Ep).
      + exact Logic.I.
      + lia.
      + exists ds. split; [exact E|]. unfold docs_keys. rewrite El. cbn [docs_list app]. rewrite map_map. apply map_ext. intros d.
        unfold key_doc, doc_key. destruct (place_of docs d) as [[q a] b]. reflexivity.
    - intros Nl (d0 & p0 & Hd0 & Ep0 & Kn). apply (get_loop_fails grow ix (place_of docs) _ ids); [exact (Rd Nl)|exact Logic.I|lia| |].
      + intros d Hd. destruct (Dn d Hd) as (Pd & p & Ep). destruct (Pl d p Hd Ep) as (H1 & H2 & H3).
        destruct (listed_dec d); [|auto]. destruct (named_dec p); auto.
      + exists d0. split; [exact Hd0|]. destruct (Pl d0 p0 Hd0 Ep0) as (H1 & H2 & H3).
        destruct (listed_dec d0) as [L|L]; [|rewrite (H2 L); discriminate]. rewrite H3; [discriminate|exact L|]. intros Np. apply Kn. auto.
    - intros Nl (d0 & p0 & Hd0 & Ep0 & Kn) Al. apply (get_loop_panic grow ix (place_of docs) _ ids); [exact (Rd Nl)|exact Logic.I|lia| |].
      + intros d Hd. destruct (Dn d Hd) as (Pd & p & Ep). destruct (Pl d p Hd Ep) as (H1 & H2 & H3). destruct (named_dec p); auto.
      + exists d0. split; [exact Hd0|]. apply (Pl d0 p0 Hd0 Ep0); [auto|exact Kn].
    - intros Nl (d0 & Hd0 & Kn) Al. apply (get_loop_eof grow ix (place_of docs) _ ids); [exact (Rd Nl)|exact Logic.I|lia| |].
      + intros d Hd. destruct (Dn d Hd) as (Pd & p & Ep). destruct (Pl d p Hd Ep) as (H1 & H2 & H3). destruct (listed_dec d); [left|right]; eauto.
      + exists d0. split; [exact Hd0|]. destruct (Dn d0 Hd0) as (Pd & p & Ep). destruct (Pl d0 p Hd0 Ep) as (H1 & H2 & H3). rewrite (H2 Kn). discriminate.
  Qed.
End P.
