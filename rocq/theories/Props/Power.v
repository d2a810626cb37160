(** C106: an index after a power failure. *)
From Coq Require Import String.
From Verif Require Import Model.Base Model.Utf8 Model.Token Model.Blotter Model.Post Model.Poster Model.Shatter Model.Shard Model.Dmd Model.Fnames Model.Conc Model.Config Model.Json Model.Run Model.Index Model.Query Model.Session Model.Crash Model.Live Model.Power.
From Verif Require Import Spec.Text Spec.Fingerprint Spec.Configs Spec.Paths Spec.Reading Spec.Querying Spec.History Spec.Str Spec.Live Spec.Shortened.
From Verif Require Import Proof.Tactics Proof.TokenP Proof.BlotterP Proof.ShardP Proof.QueryP Proof.QueryW Proof.SessionP Proof.SessionP2 Proof.CrashP Proof.LiveP Proof.ShortP Proof.PowerP.
Local Open Scope N_scope.
Local Open Scope list_scope.

(** C106 fails. The index had the sessions [ss] and then [news], all of them finished. If the
    machine stops and of all that the sessions [news] wrote only the table of one shard is
    lost, the index opens; a query for a blot of that shard which no document of [ss] has
    finds nothing, without an error, however many documents of [news] have it; every
    other query is complete. *)
Theorem C106_documents_lost_refuted : forall u c k m n sorted, cfg_full c k m n -> cfg_values c -> sorts sorted ->
  forall ss dk news dk' wss0 wss1, history u c ss dk -> since u dk news dk' ->
  docs_fit (all_docs ss ++ all_docs news) -> words_of (word_char u) (all_docs ss) wss0 -> words_of (word_char u) (all_docs news) wss1 ->
  forall j dirs, dirs (cf_root c) = files_after false false (Nat.eqb j) dk dk' ->
  exists ix, open_files sorted dirs (cf_root c) = Ok ix /\
  forall grow blot fuel, (List.length (all_docs ss ++ all_docs news) < fuel)%nat ->
  let ids0 := carriers (word_hash u) k m n 0 wss0 (blot mod (N.of_nat n * 65536)) in
  let ids := carriers (word_hash u) k m n 0 (wss0 ++ wss1) (blot mod (N.of_nat n * 65536)) in
  (N.to_nat (blot mod N.of_nat n) = j -> ids0 = [] -> query_get grow ix fuel blot None = Ok None) /\
  (N.to_nat (blot mod N.of_nat n) <> j \/ ids0 <> [] ->
    exists ds, query_get grow ix fuel blot None = Ok ds /\ docs_keys ds = map (place_of (all_docs ss ++ all_docs news)) ids).
Proof.
  intros u c k m n sorted F V Hs ss dk news dk' wss0 wss1 Hi Si Fit W0 W1 j dirs Ed.
  destruct F as [O Hn Hfl] eqn:EF. destruct (history_inv u c k m n O Hn Hfl ss dk Hi (fit_app _ _ Fit) wss0 W0) as (fn0 & fs0 & D).
  destruct (gets_after u c k m n sorted F Hs _ wss0 fn0 fs0 dk D W0 news wss1 dk' Si Fit W1 false false (Nat.eqb j)) as (ix & Eo & _ & Kc & G).
  pose proof (proj1 (open_files_of c k m n F V sorted dirs _ Ed Kc)) as Eq. rewrite Eo in Eq. clear Eo. rename Eq into Eo.
  exists ix. split; [exact Eo|]. intros grow blot fuel Lf ids0 ids. destruct (G grow blot fuel Lf) as (A & B & _). unfold QueryP.shard_of in A, B. fold ids0 in A, B. fold ids in B.
  split.
  - intros Ej Q. apply A. split; [apply Nat.eqb_eq; congruence|exact Q].
  - intros Q. apply B; [|intros d p _ _; split; left; reflexivity]. intros [Ej Q']. apply Nat.eqb_eq in Ej. destruct Q as [Q|Q]; congruence.
Qed.
Print Assumptions C106_documents_lost_refuted.
(** If only what was added to dmd is lost, every query for a blot that a document of [news]
    has fails, and the documents of [ss] that have it are not returned either. *)
Theorem C106_records_lost_refuted : forall u c k m n sorted, cfg_full c k m n -> cfg_values c -> sorts sorted ->
  forall ss dk news dk' wss0 wss1, history u c ss dk -> since u dk news dk' ->
  docs_fit (all_docs ss ++ all_docs news) -> words_of (word_char u) (all_docs ss) wss0 -> words_of (word_char u) (all_docs news) wss1 ->
  forall dirs, dirs (cf_root c) = files_after true false (fun _ => false) dk dk' ->
  exists ix, open_files sorted dirs (cf_root c) = Ok ix /\
  forall grow blot fuel d, (List.length (all_docs ss ++ all_docs news) < fuel)%nat ->
  In d (carriers (word_hash u) k m n 0 (wss0 ++ wss1) (blot mod (N.of_nat n * 65536))) -> nlen (all_docs ss) < d ->
  query_get grow ix fuel blot None = Err EOF.
Proof.
  intros u c k m n sorted F V Hs ss dk news dk' wss0 wss1 Hi Si Fit W0 W1 dirs Ed.
  destruct F as [O Hn Hfl] eqn:EF. destruct (history_inv u c k m n O Hn Hfl ss dk Hi (fit_app _ _ Fit) wss0 W0) as (fn0 & fs0 & D).
  destruct (gets_after u c k m n sorted F Hs _ wss0 fn0 fs0 dk D W0 news wss1 dk' Si Fit W1 true false (fun _ => false)) as (ix & Eo & _ & Kc & G).
  pose proof (proj1 (open_files_of c k m n F V sorted dirs _ Ed Kc)) as Eq. rewrite Eo in Eq. clear Eo. rename Eq into Eo.
  exists ix. split; [exact Eo|]. intros grow blot fuel d Lf Hd Ld. destruct (G grow blot fuel Lf) as (_ & _ & _ & _ & B). apply B.
  - intros [X _]. discriminate X.
  - exists d. split; [exact Hd|]. intros [X|X]; [discriminate X|lia].
  - intros. left. reflexivity.
Qed.
Print Assumptions C106_records_lost_refuted.
(** If only what files.fnm got is lost, every query for a blot of a document with a new path
    panics. *)
Theorem C106_names_lost_refuted : forall u c k m n sorted, cfg_full c k m n -> cfg_values c -> sorts sorted ->
  forall ss dk news dk' wss0 wss1, history u c ss dk -> since u dk news dk' ->
  docs_fit (all_docs ss ++ all_docs news) -> words_of (word_char u) (all_docs ss) wss0 -> words_of (word_char u) (all_docs news) wss1 ->
  forall dirs, dirs (cf_root c) = files_after false true (fun _ => false) dk dk' ->
  exists ix, open_files sorted dirs (cf_root c) = Ok ix /\
  forall grow blot fuel d p, (List.length (all_docs ss ++ all_docs news) < fuel)%nat ->
  In d (carriers (word_hash u) k m n 0 (wss0 ++ wss1) (blot mod (N.of_nat n * 65536))) -> doc_at (all_docs ss ++ all_docs news) d p -> ~ known (all_docs ss) p ->
  query_get grow ix fuel blot None = Panic.
Proof.
  intros u c k m n sorted F V Hs ss dk news dk' wss0 wss1 Hi Si Fit W0 W1 dirs Ed.
  destruct F as [O Hn Hfl] eqn:EF. destruct (history_inv u c k m n O Hn Hfl ss dk Hi (fit_app _ _ Fit) wss0 W0) as (fn0 & fs0 & D).
  destruct (gets_after u c k m n sorted F Hs _ wss0 fn0 fs0 dk D W0 news wss1 dk' Si Fit W1 false true (fun _ => false)) as (ix & Eo & _ & Kc & G).
  pose proof (proj1 (open_files_of c k m n F V sorted dirs _ Ed Kc)) as Eq. rewrite Eo in Eq. clear Eo. rename Eq into Eo.
  exists ix. split; [exact Eo|]. intros grow blot fuel d p Lf Hd Ep Kn. destruct (G grow blot fuel Lf) as (_ & _ & _ & B & _). apply B.
  - intros [X _]. discriminate X.
  - exists d, p. split; [exact Hd|]. split; [exact Ep|]. intros [X|X]; [discriminate X|auto].
  - intros. left. reflexivity.
Qed.
Print Assumptions C106_names_lost_refuted.
(** What holds, whichever of these files (dmd, files.fnm, each table) are old: the index
    opens, and a query gives all documents of [ss] and [news] that have the blot, or reports
    an error or panics, or finds nothing where no document of [ss] had the blot. It never
    gives a wrong document, nor some of the documents only. *)
Theorem C106_all_or_none_partial : forall u c k m n sorted, cfg_full c k m n -> cfg_values c -> sorts sorted ->
  forall ss dk news dk' wss0 wss1, history u c ss dk -> since u dk news dk' ->
  docs_fit (all_docs ss ++ all_docs news) -> words_of (word_char u) (all_docs ss) wss0 -> words_of (word_char u) (all_docs news) wss1 ->
  forall olddmd oldnames oldtab dirs, dirs (cf_root c) = files_after olddmd oldnames oldtab dk dk' ->
  exists ix, open_files sorted dirs (cf_root c) = Ok ix /\
  forall grow blot fuel, (List.length (all_docs ss ++ all_docs news) < fuel)%nat ->
  let ids0 := carriers (word_hash u) k m n 0 wss0 (blot mod (N.of_nat n * 65536)) in
  let ids := carriers (word_hash u) k m n 0 (wss0 ++ wss1) (blot mod (N.of_nat n * 65536)) in
  (exists ds, query_get grow ix fuel blot None = Ok ds /\ docs_keys ds = map (place_of (all_docs ss ++ all_docs news)) ids) \/
  (query_get grow ix fuel blot None = Ok None /\ ids0 = [] /\ oldtab (N.to_nat (blot mod N.of_nat n)) = true) \/
  (query_get grow ix fuel blot None = Err EOF \/ query_get grow ix fuel blot None = Panic) /\
    (exists d, In d ids /\ nlen (all_docs ss) < d) /\ (olddmd = true \/ oldnames = true).
Proof.
  intros u c k m n sorted F V Hs ss dk news dk' wss0 wss1 Hi Si Fit W0 W1 olddmd oldnames oldtab dirs Ed.
  destruct F as [O Hn Hfl] eqn:EF. destruct (history_inv u c k m n O Hn Hfl ss dk Hi (fit_app _ _ Fit) wss0 W0) as (fn0 & fs0 & D).
  destruct (gets_after u c k m n sorted F Hs _ wss0 fn0 fs0 dk D W0 news wss1 dk' Si Fit W1 olddmd oldnames oldtab) as (ix & Eo & _ & Kc & G).
  pose proof (proj1 (open_files_of c k m n F V sorted dirs _ Ed Kc)) as Eq. rewrite Eo in Eq. clear Eo. rename Eq into Eo.
  exists ix. split; [exact Eo|]. intros grow blot fuel Lf ids0 ids. destruct (G grow blot fuel Lf) as (A & B & C & _). unfold QueryP.shard_of in A, B, C. fold ids0 in A, B, C. fold ids in B, C.
  assert (T : {oldtab (N.to_nat (blot mod N.of_nat n)) = true /\ ids0 = []} + {~ (oldtab (N.to_nat (blot mod N.of_nat n)) = true /\ ids0 = [])}).
  { destruct (oldtab _); [|right; intros [X _]; discriminate X]. destruct ids0; [left; auto|right; intros [_ X]; discriminate X]. }
  destruct T as [L|L]; [right; left; split; [exact (A L)|tauto]|].
  assert (H : (forall d p, In d ids -> doc_at (all_docs ss ++ all_docs news) d p -> (olddmd = false \/ d <= nlen (all_docs ss)) /\ (oldnames = false \/ known (all_docs ss) p)) \/
    (exists d p, In d ids /\ doc_at (all_docs ss ++ all_docs news) d p /\ ~ ((olddmd = false \/ d <= nlen (all_docs ss)) /\ (oldnames = false \/ known (all_docs ss) p)))).
  { clear - ss. generalize ids. intros l. induction l as [|d l IH]; [left; intros d p []|].
    destruct IH as [IH|(d' & p' & H1 & H2)]; [|right; exists d', p'; split; [right; exact H1|exact H2]].
    destruct (nth_error (all_docs ss ++ all_docs news) (N.to_nat (d - 1))) as [p|] eqn:E.
    - assert (X : ((olddmd = false \/ d <= nlen (all_docs ss)) /\ (oldnames = false \/ known (all_docs ss) p)) \/ ~ ((olddmd = false \/ d <= nlen (all_docs ss)) /\ (oldnames = false \/ known (all_docs ss) p))).
      { destruct (listed_dec (all_docs ss) olddmd d) as [X|X]; [|right; intros [Y _]; exact (X Y)].
        destruct (named_dec (all_docs ss) oldnames p) as [Y|Y]; [left; split; [exact X|exact Y]|right; intros [_ Z]; exact (Y Z)]. }
      destruct X as [X|X].
      + left. intros d' p' [<-|Hd] E'; [|auto]. unfold doc_at in E'. assert (p' = p) as -> by congruence. exact X.
      + right. exists d, p. split; [left; reflexivity|]. split; [exact E|exact X].
    - left. intros d' p' [<-|Hd] E'; [|auto]. unfold doc_at in E'. congruence. }
  destruct H as [H|H]; [left; apply B; [exact L|exact H]|]. right. right. split; [apply C; [exact L|exact H]|].
  destruct H as (d & p & Hd & Ep & Nk). split.
  - exists d. split; [exact Hd|]. destruct (N.le_gt_cases d (nlen (all_docs ss))) as [Le|Lt]; [|exact Lt]. exfalso. apply Nk. split; [right; exact Le|]. right.
    destruct (carriers_pos _ _ _ _ _ _ _ Hd) as [Pd _].
    exists p, []. rewrite app_nil_r. split; [|reflexivity]. unfold doc_at in Ep. rewrite nth_error_app1 in Ep by (unfold nlen in Le; lia). eapply nth_error_In, Ep.
  - destruct olddmd; [auto|]. destruct oldnames; [auto|]. exfalso. apply Nk. split; left; reflexivity.
Qed.
Print Assumptions C106_all_or_none_partial.

(** And so it is if, further, any of the files have been cut short anywhere or are gone,
    posting files (of which those that a session creates are not opened with O_SYNC) and the
    configuration included, unless opening the index is an error. Missing: files of which
    some parts are old and others new. *)
Theorem C106_cut_short_partial : forall u c k m n sorted, cfg_full c k m n -> cfg_values c -> sorts sorted ->
  forall ss dk news dk' wss0 wss1, history u c ss dk -> since u dk news dk' ->
  docs_fit (all_docs ss ++ all_docs news) -> words_of (word_char u) (all_docs ss) wss0 -> words_of (word_char u) (all_docs news) wss1 ->
  forall olddmd oldnames oldtab fs dirs, shortened (files_after olddmd oldnames oldtab dk dk') fs -> dirs (cf_root c) = fs ->
  (exists e, open_files sorted dirs (cf_root c) = Err e) \/
  exists ix, open_files sorted dirs (cf_root c) = Ok ix /\
  forall grow blot fuel, (List.length (all_docs ss ++ all_docs news) < fuel)%nat ->
  let ids0 := carriers (word_hash u) k m n 0 wss0 (blot mod (N.of_nat n * 65536)) in
  let ids := carriers (word_hash u) k m n 0 (wss0 ++ wss1) (blot mod (N.of_nat n * 65536)) in
  (exists ds, query_get grow ix fuel blot None = Ok ds /\ docs_keys ds = map (place_of (all_docs ss ++ all_docs news)) ids) \/
  (query_get grow ix fuel blot None = Ok None /\ ids0 = [] /\ oldtab (N.to_nat (blot mod N.of_nat n)) = true) \/
  (exists e, query_get grow ix fuel blot None = Err e) \/ query_get grow ix fuel blot None = Panic.
Proof.
  intros u c k m n sorted F V Hs ss dk news dk' wss0 wss1 Hi Si Fit W0 W1 olddmd oldnames oldtab fs dirs Cut Ed.
  destruct (C106_all_or_none_partial u c k m n sorted F V Hs ss dk news dk' wss0 wss1 Hi Si Fit W0 W1 olddmd oldnames oldtab
    (fun _ => files_after olddmd oldnames oldtab dk dk') eq_refl) as (ix0 & Eo & G).
  assert (K : exists ix0', open_index sorted (disk_after olddmd oldnames oldtab dk dk') = Ok ix0' /\ ix_cfg ix0' = c /\ k_cfg (disk_after olddmd oldnames oldtab dk dk') = Some c).
  { destruct F as [O Hn Hfl] eqn:EF. destruct (history_inv u c k m n O Hn Hfl ss dk Hi (fit_app _ _ Fit) wss0 W0) as (fn0 & fs0 & D).
    destruct (gets_after u c k m n sorted F Hs _ wss0 fn0 fs0 dk D W0 news wss1 dk' Si Fit W1 olddmd oldnames oldtab) as (ix & E1 & E2 & E3 & _). eauto. }
  destruct K as (ix0' & Ei & Ec & Kc).
  rewrite (proj1 (open_files_of c k m n F V sorted (fun _ => files_after olddmd oldnames oldtab dk dk') (disk_after olddmd oldnames oldtab dk dk') eq_refl Kc)) in Eo.
  assert (ix0' = ix0) as -> by congruence.
  destruct (open_shortened sorted c _ fs ix0 dirs V (full_consistent c k m n F) Ei Ec Kc Cut Ed) as [E|(ix' & d & t & E & _ & _ & _ & C)]; [left; exact E|right].
  exists ix'. split; [exact E|]. intros grow blot fuel Lf ids0 ids.
  destruct (query_get_cut grow t ix0 ix' C fuel blot None) as [->|[->|[_ ->]]]; [|right; right; left; eauto|right; right; left; eauto].
  destruct (G grow blot fuel Lf) as [A|[A|([A|A] & _)]]; [left; exact A|right; left; exact A|right; right; left; eauto|right; right; right; exact A].
Qed.
Print Assumptions C106_cut_short_partial.

(** Such sessions: one with three documents that are alike, and then one with two of another
    text. With the old table of shard 1 a query for what the new ones have in common finds
    nothing; with the old dmd or the old names it does not answer. *)
Example C106_example u sorted : sorts sorted -> exists dk dk', history u wit_config [firstn 3 wit_docs] dk /\ since u dk [skipn 3 wit_docs] dk' /\
  (forall dirs, dirs (cf_root wit_config) = files_after false false (Nat.eqb 1) dk dk' -> exists ix, open_files sorted dirs (cf_root wit_config) = Ok ix /\
    forall grow fuel, (5 < fuel)%nat -> query_get grow ix fuel wit_blot2 None = Ok None /\
      exists ds, query_get grow ix fuel wit_blot1 None = Ok ds /\ docs_keys ds = [(bs "/1", 0, 22); (bs "/2", 0, 22); (bs "/3", 0, 22)]) /\
  (forall dirs, dirs (cf_root wit_config) = files_after true false (fun _ => false) dk dk' -> exists ix, open_files sorted dirs (cf_root wit_config) = Ok ix /\
    forall grow fuel, (5 < fuel)%nat -> query_get grow ix fuel wit_blot2 None = Err EOF) /\
  (forall dirs, dirs (cf_root wit_config) = files_after false true (fun _ => false) dk dk' -> exists ix, open_files sorted dirs (cf_root wit_config) = Ok ix /\
    forall grow fuel, (5 < fuel)%nat -> query_get grow ix fuel wit_blot2 None = Panic) /\
  (forall dirs, dirs (cf_root wit_config) = files_after false false (fun _ => false) dk dk' -> exists ix, open_files sorted dirs (cf_root wit_config) = Ok ix /\
    forall grow fuel, (5 < fuel)%nat -> exists ds, query_get grow ix fuel wit_blot2 None = Ok ds /\ docs_keys ds = map (place_of wit_docs) [4; 5]).
Proof.
  intros Hs.
  assert (Fit : docs_fit (all_docs [firstn 3 wit_docs] ++ all_docs [skipn 3 wit_docs])) by exact wit_fit.
  pose proof (wit_words u) as Ww. change wit_docs with (all_docs [firstn 3 wit_docs] ++ all_docs [skipn 3 wit_docs]) in Ww. change wit_wss with (firstn 3 wit_wss ++ skipn 3 wit_wss) in Ww.
  assert (W0 : words_of (word_char u) (all_docs [firstn 3 wit_docs]) (firstn 3 wit_wss) /\ words_of (word_char u) (all_docs [skipn 3 wit_docs]) (skipn 3 wit_wss)).
  { unfold words_of in *. apply Forall2_app_inv_l in Ww. destruct Ww as (a & b & A & B & E).
    assert (a = firstn 3 wit_wss /\ b = skipn 3 wit_wss) as [-> ->]; [|auto].
    pose proof (words_of_len _ _ _ A) as L. change (List.length (all_docs [firstn 3 wit_docs])) with 3%nat in L.
    destruct a as [|a1 [|a2 [|a3 [|a4 a]]]]; try discriminate L. cbn [app firstn skipn wit_wss] in E. injection E as <- <- <- <-. split; reflexivity. }
  clear Ww. destruct W0 as [W0 W1].
  pose proof wit_full as F. destruct wit_full as [O Hn Hfl] eqn:EF.
  destruct (history_exists u wit_config 1 10 2 O Hn Hfl [firstn 3 wit_docs]) as [dk Hi]; [discriminate|reflexivity|exact (fit_app _ _ Fit)|].
  destruct (since_exists u wit_config 1 10 2 F [firstn 3 wit_docs] dk (skipn 3 wit_docs) Hi) as [dk' Si]; [exact Fit|reflexivity|].
  exists dk, dk'. split; [exact Hi|]. split; [exact Si|].
  assert (E1 : wit_blot1 mod (N.of_nat 2 * 65536) = wit_blot1) by (vm_compute; reflexivity).
  assert (E2 : wit_blot2 mod (N.of_nat 2 * 65536) = wit_blot2) by (vm_compute; reflexivity).
  assert (N12 : (wit_blot1 =? wit_blot2) = false) by (vm_compute; reflexivity).
  assert (C0 : forall q, carriers (word_hash u) 1 10 2 0 (firstn 3 wit_wss) q = if wit_blot1 =? q then [1; 2; 3] else []).
  { intros q. unfold wit_wss. cbn [firstn carriers]. rewrite !wit_has1. destruct (wit_blot1 =? q); reflexivity. }
  assert (C1 : carriers (word_hash u) 1 10 2 0 (firstn 3 wit_wss ++ skipn 3 wit_wss) wit_blot2 = [4; 5]).
  { rewrite firstn_skipn, wit_carriers. vm_compute. reflexivity. }
  assert (C2 : carriers (word_hash u) 1 10 2 0 (firstn 3 wit_wss ++ skipn 3 wit_wss) wit_blot1 = [1; 2; 3]).
  { rewrite firstn_skipn, wit_carriers. vm_compute. reflexivity. }
  assert (V : cfg_values wit_config) by (constructor; try (split; [vm_compute; discriminate|reflexivity]); apply Utf8P.utf8_valid_spec; vm_compute; reflexivity).
  split; [|split; [|split]]; intros dirs Ed.
  - destruct (C106_documents_lost_refuted u wit_config 1 10 2 sorted F V Hs _ dk _ dk' _ _ Hi Si Fit W0 W1 1%nat dirs Ed) as (ix & Eo & G). exists ix. split; [exact Eo|].
    intros grow fuel Lf. split.
    + destruct (G grow wit_blot2 fuel) as [A _]; [cbn; lia|]. apply A; [vm_compute; reflexivity|]. rewrite E2, C0, N12. reflexivity.
    + destruct (G grow wit_blot1 fuel) as [_ A]; [cbn; lia|]. rewrite E1, C2 in A. apply A. left. vm_compute. discriminate.
  - destruct (C106_records_lost_refuted u wit_config 1 10 2 sorted F V Hs _ dk _ dk' _ _ Hi Si Fit W0 W1 dirs Ed) as (ix & Eo & G). exists ix. split; [exact Eo|].
    intros grow fuel Lf. apply (G grow wit_blot2 fuel 4); [cbn; lia|rewrite E2, C1; left; reflexivity|vm_compute; reflexivity].
  - destruct (C106_names_lost_refuted u wit_config 1 10 2 sorted F V Hs _ dk _ dk' _ _ Hi Si Fit W0 W1 dirs Ed) as (ix & Eo & G). exists ix. split; [exact Eo|].
    intros grow fuel Lf. eapply (G grow wit_blot2 fuel 4); [cbn; lia|rewrite E2, C1; left; reflexivity|reflexivity|].
    intros (q & suf & Hq & E). cbn [all_docs rev concat app firstn wit_docs] in Hq. repeat (destruct Hq as [<-|Hq]; [vm_compute in E; discriminate E|]). destruct Hq.
  - destruct (C106_all_or_none_partial u wit_config 1 10 2 sorted F V Hs _ dk _ dk' _ _ Hi Si Fit W0 W1 false false (fun _ => false) dirs Ed) as (ix & Eo & G). exists ix. split; [exact Eo|].
    intros grow fuel Lf. destruct (G grow wit_blot2 fuel) as [A|[(_ & _ & A)|(_ & _ & [A|A])]]; [cbn; lia| |discriminate A..]. rewrite E2, C1 in A. exact A.
Qed.
(** Files cut short: all whole; all tables gone. *)
Example C106_cut_example : forall fs, shortened fs fs /\ shortened fs (MkFiles (w_cfg fs) (w_dmd fs) (w_fnames fs) (map (fun f => (None, snd f)) (w_shards fs))).
Proof.
  intros fs. assert (R : forall o, cut_from o o) by (intros [b|]; [exists []; rewrite app_nil_r; reflexivity|exact Logic.I]).
  split; constructor; cbn [w_cfg w_dmd w_fnames w_shards]; auto; induction (w_shards fs) as [|p l IH]; cbn [map]; constructor; auto.
  split; [exact Logic.I|apply R].
Qed.
