(** Appending after an append session that was stopped in Close, after the posting files
    were written and before the tables were. *)
From Verif Require Import Model.Base Model.Address Model.Varint Model.Utf8 Model.Token Model.Blotter Model.Post Model.Poster Model.Shatter Model.Shard Model.Dmd Model.Fnames Model.Conc Model.Config Model.Json Model.Run Model.Index Model.Query Model.Session Model.Crash.
From Verif Require Import Spec.Text Spec.Fingerprint Spec.Configs Spec.Posting Spec.Postings Spec.Paths Spec.Reading Spec.Querying Spec.History.
From Verif Require Import Proof.Tactics Proof.VarintP Proof.TokenP Proof.BlotterP Proof.ShatterP Proof.IndexP2 Proof.DmdP Proof.FnamesP Proof.FnamesP2 Proof.PosterP Proof.ShardP Proof.ConcP Proof.ConcRun Proof.QueryP Proof.JsonP Proof.ConfigP Proof.SessionP Proof.SessionP2 Proof.JsonP2 Proof.CutP Proof.CrashP Proof.KeepP Proof.CrashP2 Proof.CrashP3 Proof.LiveP Proof.MomentsP Proof.CloseFaultP Proof.LinkCutP Proof.LinkCutP2 Proof.DocidP Proof.StaleP.
From Coq Require Import Lia.
Local Open Scope N_scope.

(** * Sequences *)
Lemma squeeze_apart a : forall b, (forall x y, a <> [] -> hd_error b = Some y -> last a x <> y) -> squeeze (a ++ b) = squeeze a ++ squeeze b.
Proof.
  induction a as [|x [|y r] IH]; intros b H; [reflexivity| |].
  - cbn [app]. destruct b as [|y b]; [reflexivity|]. rewrite squeeze_cons2. specialize (H x y ltac:(discriminate) eq_refl). cbn [last] in H.
    destruct (N.eqb_spec x y); [contradiction|]. reflexivity.
  - change ((x :: y :: r) ++ b) with (x :: y :: (r ++ b)). rewrite !squeeze_cons2. assert (X : squeeze (y :: r ++ b) = squeeze (y :: r) ++ squeeze b).
    { apply (IH b). intros d z _ E. specialize (H d z ltac:(discriminate) E). exact H. }
    rewrite X. destruct (x =? y); reflexivity.
Qed.
Lemma squeeze_map (f : N -> N) l : (forall x y, In x l -> In y l -> f x = f y -> x = y) -> squeeze (map f l) = map f (squeeze l).
Proof.
  induction l as [|x [|y r] IH]; intros H; [reflexivity|reflexivity|]. cbn [map] in *. rewrite !squeeze_cons2. assert (X := IH ltac:(intros; apply H; auto; right; auto)).
  destruct (N.eqb_spec x y) as [->|Ne].
  - rewrite N.eqb_refl. exact X.
  - destruct (N.eqb_spec (f x) (f y)) as [E|_]; [exfalso; apply Ne, H; [left; reflexivity|right; left; reflexivity|exact E]|]. cbn [map]. rewrite X. reflexivity.
Qed.
Lemma squeeze_in x l : In x (squeeze l) <-> In x l.
Proof.
  induction l as [|a [|b r] IH]; [tauto|tauto|]. rewrite squeeze_cons2. destruct (N.eqb_spec a b) as [->|_].
  - rewrite IH. cbn [In]. tauto.
  - cbn [In] in *. rewrite IH. tauto.
Qed.
Lemma squeeze_last l : last (squeeze l) 0 = last l 0.
Proof.
  induction l as [|a [|b r] IH]; [reflexivity|reflexivity|]. rewrite squeeze_cons2. change (last (a :: b :: r) 0) with (last (b :: r) 0). rewrite <- IH. destruct (a =? b); [reflexivity|].
  destruct (squeeze (b :: r)) eqn:E; [apply squeeze_nil in E; discriminate|reflexivity].
Qed.
Lemma at_flushed xs : forall old, length old = length xs -> exists new, shards_at closing xs old new /\ length new = length xs /\
  forall i o x, nth_error old i = Some o -> nth_error xs i = Some x -> nth_error new i = Some (fst o, Some (x_file (flush_ind x))).
Proof.
  induction xs as [|x xs IH]; intros [|o old] L; try discriminate; cbn [length] in L.
  - exists []. split; [exact I|]. split; [reflexivity|]. intros [|i]; discriminate.
  - destruct (IH old ltac:(lia)) as (new & A & B & E). exists ((fst o, Some (x_file (flush_ind x))) :: new). cbn [shards_at length]. split; [|split].
    + split; [|exact A]. apply closing_flush. unfold flush_ind. rewrite (proj1 (flush_facts _ 0 x)). apply wops_cut_all.
    + lia.
    + intros [|i] o' x' E1 E2; cbn [nth_error] in *; [congruence|eauto].
Qed.
(** A number the index has no record of ends the query. *)
Lemma get_loop_beyond grow ix place f ids : forall fuel ps ds, reads f ps ids -> docs_wf ds -> (length ids < fuel)%nat ->
  (forall d, In d ids -> docid2doc ix d = Ok (place d) \/ docid2doc ix d = Err EOF) -> (exists d, In d ids /\ docid2doc ix d = Err EOF) ->
  get_loop grow ix fuel false f ps ds = Err EOF.
Proof.
  induction ids as [|d ids IH]; intros [|fuel] ps ds R W L H (d0 & Hd & Ed); cbn [length] in L; try lia; [destruct Hd|]. cbn [get_loop andb reads] in *.
  destruct R as (ps' & E & R). rewrite E. destruct (H d ltac:(left; reflexivity)) as [X|X]; rewrite X; cbn [bind]; [|reflexivity].
  destruct (place d) as [[p s] e]. destruct (put_doc_free grow ds p s e W) as (ds1 & E1 & W1 & _). rewrite E1. cbn [bind]. apply IH; auto; [lia|intros; apply H; right; assumption|].
  exists d0. split; [|exact Ed]. destruct Hd as [->|Hd]; [congruence|exact Hd].
Qed.

Lemma combine_nth {A B} (l : list A) : forall (r : list B) j a b, nth_error l j = Some a -> nth_error r j = Some b -> nth_error (combine l r) j = Some (a, b).
Proof. induction l as [|x l IH]; intros [|y r] [|j] a b E1 E2; cbn [nth_error combine] in *; try discriminate; [congruence|auto]. Qed.

Section A.
  Variables (u : unicode) (c : config) (k m n : nat).
  Hypothesis F : cfg_full c k m n.
  Let O : cfg_ok c k m n := cu_ok _ _ _ _ F.
  Let Hn : N.of_nat n < 65536 := cu_n _ _ _ _ F.
  Let Hfl : (1 <= cf_flush c)%Z := cu_flush _ _ _ _ F.
  Notation carr last wss q := (carriers (word_hash u) k m n last wss q).

  (** What a slot holds in the end: nothing of the stopped session if the table has no chain
      for it, and otherwise numbers moved on by what the table is behind. *)
  Definition kept (wss w1 : list (list bytes)) (q : N) : list N := match carr 0 wss q with [] => [] | _ => carr 0 (wss ++ w1) q end.
  Definition shifted (wss w1 w2 : list (list bytes)) (q : N) : list N :=
    kept wss w1 q ++ map (fun v => add32 v (sub32 (last (kept wss w1 q) 0) (last (carr 0 wss q) 0))) (carr (nlen (wss ++ w1)) w2 q).
  Lemma carr_last wss q : last (carr 0 wss q) 0 <= nlen wss.
  Proof.
    destruct (carr 0 wss q) as [|a l] eqn:E; [cbn [last]; unfold nlen; lia|]. assert (X : In (last (carr 0 wss q) 0) (carr 0 wss q)) by (apply last_in; rewrite E; discriminate).
    rewrite E in *. rewrite <- E in X at 2. apply SessionP.carriers_in in X. lia.
  Qed.
  Lemma carr_last_app wss w1 q : last (carr 0 wss q) 0 <= last (carr 0 (wss ++ w1) q) 0.
  Proof.
    rewrite carriers_app. destruct (carr (0 + nlen wss) w1 q) as [|a l] eqn:E; [rewrite app_nil_r; lia|].
    assert (X : In (last (carr 0 wss q ++ a :: l) 0) (a :: l)).
    { rewrite <- (app_nil_r (a :: l)) at 1. assert (Y : a :: l <> []) by discriminate. revert Y. generalize (a :: l) as l2. clear. intros l2 Y.
      rewrite app_nil_r. revert Y. induction (carr 0 wss q) as [|x r IH]; intros Y; cbn [app]; [apply last_in, Y|]. specialize (IH Y). destruct (r ++ l2) eqn:Er; [apply app_eq_nil in Er; tauto|exact IH]. }
    rewrite <- E in X. apply SessionP.carriers_in in X. rewrite E in X. pose proof (carr_last wss q). lia.
  Qed.
  Lemma kept_last wss w1 q : last (carr 0 wss q) 0 <= last (kept wss w1 q) 0 <= nlen (wss ++ w1).
  Proof.
    unfold kept. pose proof (carr_last (wss ++ w1) q). pose proof (carr_last_app wss w1 q). destruct (carr 0 wss q); [cbn [last]; unfold nlen; lia|lia].
  Qed.
  Lemma kept_len wss w1 q : (length (kept wss w1 q) <= length (wss ++ w1))%nat.
  Proof. unfold kept. pose proof (carriers_len (word_hash u) k m n q (wss ++ w1) 0). destruct (carr 0 wss q); [cbn [length]; lia|assumption]. Qed.
  Lemma slot_content wss w1 w2 j s : (j < n)%nat -> (s < num_slots)%nat -> nlen (wss ++ w1 ++ w2) < 4294967295 -> small (word_hash u) k m (wss ++ w1 ++ w2) ->
    let hist := posts_for (word_hash u) k m n j 0 wss in let more := posts_for (word_hash u) k m n j (nlen wss) w1 in
    let later := posts_for (word_hash u) k m n j (nlen (wss ++ w1)) w2 in
    content_of (old hist more ++ map (shift (lag hist more)) later) s = shifted wss w1 w2 (N.of_nat s * N.of_nat n + N.of_nat j).
  Proof.
    intros Lj Ls Ln Sm hist more later. assert (Hn0 : (0 < n)%nat) by lia. set (q := N.of_nat s * N.of_nat n + N.of_nat j).
    assert (Sm1 : small (word_hash u) k m wss /\ small (word_hash u) k m w1 /\ small (word_hash u) k m w2).
    { unfold small in *. rewrite !Forall_app in Sm. tauto. } destruct Sm1 as (Sa & Sb & Sc).
    assert (Ea : hist ++ more = posts_for (word_hash u) k m n j 0 (wss ++ w1)) by (rewrite posts_for_app; reflexivity).
    assert (C0 : content_of hist s = carr 0 wss q) by (unfold content_of, hist; apply posts_carriers; auto; unfold nlen in *; rewrite !app_length in Ln; lia).
    assert (C1 : content_of (hist ++ more) s = carr 0 (wss ++ w1) q).
    { rewrite Ea. unfold content_of. apply posts_carriers; auto; [unfold nlen in *; rewrite !app_length in *; lia|]. apply Forall_app. auto. }
    assert (CO : content_of (old hist more) s = kept wss w1 q).
    { rewrite (content_old hist more s Ls), C1. unfold fresh, kept. rewrite C0. destruct (carr 0 wss q); reflexivity. }
    assert (C2 : squeeze (posted s later) = carr (nlen (wss ++ w1)) w2 q) by (unfold later; apply posts_carriers; auto; unfold nlen in *; rewrite !app_length in *; lia).
    unfold content_of at 1. rewrite posted_app, shift_posted. unfold lag. rewrite C0, CO. unfold shifted. rewrite <- CO at 1. unfold content_of. rewrite <- C2.
    set (d := sub32 (last (kept wss w1 q) 0) (last (carr 0 wss q) 0)). pose proof (kept_last wss w1 q) as KL.
    assert (Bd : d <= last (kept wss w1 q) 0).
    { unfold d, sub32, u32. unfold nlen in *. rewrite !app_length in *. lia. }
    assert (Bl : last (kept wss w1 q) 0 <= nlen (wss ++ w1)) by lia.
    assert (Bx : forall x, In x (posted s later) -> nlen (wss ++ w1) < x < 4294967295).
    { intros x Hx. apply squeeze_in in Hx. rewrite C2 in Hx. apply SessionP.carriers_in in Hx. unfold nlen in *. rewrite !app_length in *. lia. }
    rewrite squeeze_apart.
    - f_equal. apply squeeze_map. intros x y Hx Hy E. apply Bx in Hx. apply Bx in Hy. assert (X : (add32 x d =? add32 y d) = true) by lia. rewrite add32_same in X by lia. lia.
    - intros x y Na Hy. assert (El : last (posted s (old hist more)) x = last (kept wss w1 q) 0).
      { rewrite <- CO. unfold content_of. rewrite squeeze_last. destruct (posted s (old hist more)); [congruence|apply last_indep]. }
      rewrite El. destruct (posted s later) as [|v l] eqn:Ev; [discriminate|]. cbn [map hd_error] in Hy. injection Hy as <-. specialize (Bx v ltac:(left; reflexivity)).
      clear - Bd Bl Bx. unfold add32, u32. generalize dependent (last (kept wss w1 q) 0). intros. lia.
  Qed.

  Theorem append_stale ss dk docs1 docs2 wss w1 w2 : history u c ss dk -> docs_fit (all_docs ss ++ docs1 ++ docs2) -> (0 < cf_numshatters c)%Z ->
    words_of (word_char u) (all_docs ss) wss -> words_of (word_char u) docs1 w1 -> words_of (word_char u) docs2 w2 ->
    exists dk1, k_cfg dk1 = Some c /\ append_stopped u dk docs1 (files_of dk1) /\ (exists dk2, session u (open_indexer dk1) docs2 dk2) /\
      forall dk2, session u (open_indexer dk1) docs2 dk2 -> forall sorted, sorts sorted ->
        exists ix, open_index sorted dk2 = Ok ix /\ forall grow fuel blot, (length (all_docs ss ++ docs1 ++ docs2) < fuel)%nat ->
          let ids := shifted wss w1 w2 (blot mod (N.of_nat n * 65536)) in
          (Forall (fun d => 1 <= d <= nlen (all_docs ss ++ docs1 ++ docs2)) ids -> exists ds, query_get grow ix fuel blot None = Ok ds /\
             docs_keys ds = map (place_of (all_docs ss ++ docs1 ++ docs2)) ids) /\
          (Forall (fun d => 1 <= d) ids -> ~ Forall (fun d => 1 <= d <= nlen (all_docs ss ++ docs1 ++ docs2)) ids -> query_get grow ix fuel blot None = Err EOF).
  Proof.
    intros Hi Fit Hsh W0 W1 W2. set (docs0 := all_docs ss) in *. assert (Fit1 : docs_fit (docs0 ++ docs1)) by (rewrite app_assoc in Fit; eapply fit_app, Fit).
    assert (Fit0 : docs_fit docs0) by (eapply fit_app, Fit1).
    destruct (history_inv u c k m n O Hn Hfl ss dk Hi Fit0 wss W0) as (fn0 & fs0 & D). fold docs0 in D.
    pose proof (df_len _ Fit0) as L0. pose proof (df_len _ Fit1) as L1. pose proof (df_len _ Fit) as L2. change (2 ^ 32) with 4294967296 in L0, L1, L2.
    destruct (open_start u c k m n O Hn Hfl _ _ _ _ _ D ltac:(lia)) as (x & wk & E & I).
    destruct (session_inv u c k m n O Hn _ x wk _ _ _ docs1 w1 E I Fit1 W0 W1) as (A & _ & (fn & dm & Ed) & La).
    pose proof (xi_cfg _ _ _ _ _ _ _ _ _ _ I) as Xc.
    destruct (completes u c k m n wk (nlen docs0) (requests docs1) (x_shards x) O) as (st & St & Fi); auto.
    { change (2 ^ 32) with 4294967296. clear - Hn. lia. } { apply (xi_ws _ _ _ _ _ _ _ _ _ _ I). }
    { change (2 ^ 32) with 4294967296. unfold requests, nlen in *. rewrite map_length. rewrite app_length in L1. clear - L1. lia. }
    { apply (xi_shards _ _ _ _ _ _ _ _ _ _ I). }
    destruct Fi as (_ & Em & _). pose proof St as St0. rewrite <- La, <- Xc in St.
    pose proof (Session u _ _ _ _ _ _ _ _ _ E Ed St Em) as Ss. destruct (A _ Ss) as (fn' & fs' & D1). clear A.
    set (dkc := MkDisk _ _ _ _) in Ss, D1.
    pose proof (history_append u c ss dk docs1 dkc Hi Ss) as Hc.
    pose proof (di_shards _ _ _ _ _ _ _ _ _ _ D1) as Lsv. unfold dkc in Lsv. cbn [k_shards] in Lsv. rewrite map_length in Lsv.
    (* what each shard holds *)
    destruct (cfg_nat _ _ _ _ O) as (En & Es & Hk & Hm & Hn0).
    pose proof (words_of_len _ _ _ W0) as Lw0. pose proof (words_of_len _ _ _ W1) as Lw1. pose proof (words_of_len _ _ _ W2) as Lw2.
    assert (EN0 : nlen docs0 = nlen wss) by (unfold nlen; lia). assert (EN1 : nlen (docs0 ++ docs1) = nlen (wss ++ w1)) by (unfold nlen; rewrite !app_length; lia).
    destruct (start_workers_good u c k m n wk O (xi_ws _ _ _ _ _ _ _ _ _ _ I)) as (Gw & Lw).
    assert (Hl' : nlen docs0 + nlen (requests docs1) < 4294967295) by (unfold nlen in *; rewrite app_length in L1; unfold requests; rewrite map_length; lia).
    assert (Small : small (word_hash u) k m (wss ++ w1 ++ w2)) by (apply Forall_app; split; [eapply words_of_small, W0|apply Forall_app; split; [eapply words_of_small, W1|eapply words_of_small, W2]]).
    assert (Ln : nlen (wss ++ w1 ++ w2) < 4294967295) by (unfold nlen in *; rewrite !app_length in *; lia).
    unfold session_steps, session_start in St0. rewrite En, Es in St0.
    destruct (run_complete serve_post u k m n Hk Hm Hn0 ltac:(lia) (requests docs1) w1 (nlen docs0) wk (x_shards x) Gw (xi_shards _ _ _ _ _ _ _ _ _ _ I) Hl'
      (words_of_requests _ _ _ W1) st _ St0 Em) as (_ & Y). clear St0.
    set (hist := fun j => posts_for (word_hash u) k m n j 0 wss). set (more := fun j => posts_for (word_hash u) k m n j (nlen wss) w1).
    set (later := fun j => posts_for (word_hash u) k m n j (nlen (wss ++ w1)) w2).
    set (xs := map v_shard (s_servers st)) in *.
    assert (Bd : forall j, (j < n)%nat -> bounded (hist j ++ more j)).
    { intros j Lj. assert (B : bounded (posts_for (word_hash u) k m n j 0 (wss ++ w1))).
      { apply posts_bounded; auto; [unfold nlen in *; rewrite !app_length in *; lia|]. unfold small in *. rewrite app_assoc in Small. apply Forall_app in Small. tauto. }
      rewrite posts_for_app in B. exact B. }
    assert (Sh : forall j, (j < n)%nat -> exists y log, shard_inv y log (content_of (hist j)) /\ flushed y /\ (Z.of_nat (log_size log) < 9223372036854775808)%Z /\
      nth_error (k_shards dk) j = Some (iix_bytes (x_ind y), x_file y) /\ nth_error xs j = Some (serve_batch y (more j))).
    { intros j Lj. destruct (nth_ex (k_shards dk) j) as [f0 E0]; [rewrite (di_shards _ _ _ _ _ _ _ _ _ _ D); exact Lj|].
      destruct (di_closed _ _ _ _ _ _ _ _ _ _ D j _ E0) as (y & log & J & Fl & Sz & Ef). exists y, log. split; [exact J|]. split; [exact Fl|]. split; [exact Sz|]. split; [congruence|].
      destruct (nth_ex (x_shards x) j) as [s0 Es0]; [rewrite (xi_shards _ _ _ _ _ _ _ _ _ _ I); exact Lj|].
      assert (s0 = y) as ->.
      { destruct (open_indexer_parts c k m n F dk x wk E (di_cfg _ _ _ _ _ _ _ _ _ _ D)) as (_ & _ & X4). destruct (for_shards_nth _ _ _ _ X4) as [_ Nx].
        destruct (Nx j s0 Es0) as (i4 & p4 & E4 & E5). rewrite E0 in E4. rewrite Ef in E4. injection E4 as <- <-.
        rewrite (shard_append_spec y log _ J Fl Sz) in E5. congruence. }
      destruct (nth_ex xs j) as [v Ev]; [rewrite Lsv; exact Lj|]. unfold xs in Ev |- *. rewrite nth_error_map in Ev |- *.
      destruct (nth_error (s_servers st) j) as [sv|] eqn:Esv; [|discriminate]. cbn [option_map]. rewrite (Y j sv y Esv Es0). unfold more. rewrite <- EN0. reflexivity. }
    (* the files left *)
    assert (Wl : length (w_shards (files_of dk)) = length xs).
    { unfold files_of. cbn [w_shards]. rewrite map_length, (di_shards _ _ _ _ _ _ _ _ _ _ D). symmetry. exact Lsv. }
    assert (Wc : w_cfg (files_of dk) = Some (config_write None c)).
    { unfold files_of. cbn [w_cfg]. rewrite (di_cfg _ _ _ _ _ _ _ _ _ _ D). reflexivity. }
    destruct (at_flushed xs (w_shards (files_of dk)) Wl) as (sh & At & Lsh & Nsh).
    set (ps := map (fun p => (fst (fst p), x_file (flush_ind (snd p)))) (combine (k_shards dk) xs)).
    assert (Lps : length ps = n) by (unfold ps; rewrite map_length, combine_length, (di_shards _ _ _ _ _ _ _ _ _ _ D), Lsv; lia).
    assert (Nps : forall j, (j < n)%nat -> exists y log, shard_inv y log (content_of (hist j)) /\ flushed y /\ (Z.of_nat (log_size log) < 9223372036854775808)%Z /\
      nth_error ps j = Some (iix_bytes (x_ind y), x_file (flush_ind (serve_batch y (more j)))) /\
      nth_error sh j = Some (Some (iix_bytes (x_ind y)), Some (x_file (flush_ind (serve_batch y (more j)))))).
    { intros j Lj. destruct (Sh j Lj) as (y & log & J & Fl & Sz & E1 & E2). exists y, log. repeat (split; [assumption|]). split.
      - unfold ps. rewrite nth_error_map. assert (X : nth_error (combine (k_shards dk) xs) j = Some ((iix_bytes (x_ind y), x_file y), serve_batch y (more j))).
        { apply combine_nth; assumption. }
        rewrite X. reflexivity.
      - rewrite (Nsh j (Some (iix_bytes (x_ind y)), Some (x_file y)) (serve_batch y (more j))); [reflexivity| |exact E2].
        unfold files_of. cbn [w_shards]. rewrite nth_error_map, E1. reflexivity. }
    assert (Esh : sh = map (fun p => (Some (fst p), Some (snd p))) ps).
    { apply nth_error_ext'. intros j. destruct (Nat.lt_ge_cases j n) as [Lj|Lj].
      - destruct (Nps j Lj) as (y & log & _ & _ & _ & E1 & E2). rewrite nth_error_map, E1, E2. reflexivity.
      - rewrite (proj2 (nth_error_None _ _)) by lia. symmetry. apply nth_error_None. rewrite map_length. lia. }
    set (dk1 := MkDisk (Some c) (adder_close dm) (Some (fn_write fn)) ps).
    exists dk1. split; [reflexivity|]. split.
    { assert (X : files_of dk1 = MkFiles (Some (config_write (w_cfg (files_of dk)) (x_cfg x))) (adder_close dm) (Some (fn_write fn)) sh).
      { unfold dk1, files_of at 1. cbn [k_cfg k_dmd k_fnames k_shards option_map]. rewrite Wc, Xc, config_same, Esh. reflexivity. }
      rewrite X. eapply append_later; [exact E|]. eapply stopped_closing; [exact St|exact Em|exact Ed|]. apply close_shards. exact At. }
    (* opening them for appending *)
    destruct (open_start u c k m n O Hn Hfl _ _ _ _ _ D1 ltac:(lia)) as (xc & wkc & Ec & Ic).
    destruct (session_inv u c k m n O Hn _ xc wkc _ _ _ docs2 w2 Ec Ic ltac:(rewrite <- app_assoc; exact Fit) ltac:(apply Forall2_app; assumption) W2) as (_ & Xs & (fn2 & dm2 & Ed2) & Lac).
    destruct (Xs Hsh) as (dk2c & Sc). clear Xs.
    pose proof (history_append u c (docs1 :: ss) dkc docs2 dk2c Hc Sc) as Hi2.
    pose proof (xi_cfg _ _ _ _ _ _ _ _ _ _ Ic) as Xcc.
    destruct (for_shards_spec shard_append (fun j z => exists y, nth_error ps j = Some (iix_bytes (x_ind y), x_file (flush_ind (serve_batch y (more j)))) /\ exists log, shard_inv y log (content_of (hist j)) /\ flushed y /\
      (Z.of_nat (log_size log) < 9223372036854775808)%Z /\ shard_append (iix_bytes (x_ind y)) (x_file (flush_ind (serve_batch y (more j)))) = Ok z) ps 0 n Lps) as (zs & Ez & Lz & Nz).
    { intros j iix pos Ej. assert (Lj : (j < n)%nat) by (rewrite <- Lps; eapply nth_len, Ej). destruct (Nps j Lj) as (y & log & J & Fl & Sz & E1 & _). rewrite E1 in Ej. injection Ej as <- <-.
      destruct (stale_open y log (hist j) (more j) J Fl Sz (Bd j Lj)) as (z & _ & Ez & _). exists z. split; [exact Ez|]. exists y. split; [exact E1|]. exists log. auto. }
    assert (Eo : open_indexer dk1 = Ok (MkIndexer (x_cfg xc) (x_dmds xc) (x_fnames xc) zs, wkc)).
    { unfold open_indexer, read_config in Ec |- *. unfold dk1, dkc in *. cbn [k_cfg k_dmd k_fnames k_shards] in *. rewrite Xc in Ec. rewrite (check_ok c k m n O Hn) in *. cbn [bind] in *.
      destruct (cf_numshards c <? 0)%Z; [discriminate|]. destruct (new_adder _ _) as [a| | |]; cbn [bind] in *; try discriminate.
      destruct (read_some _ _) as [f| | |]; cbn [bind] in *; try discriminate. destruct (token_from_config _) as [t| | |]; cbn [bind] in *; try discriminate.
      rewrite En, Ez. destruct (for_shards _ _ _) as [xs'| | |]; cbn [bind] in *; try discriminate. destruct (start_workers c) as [wk'| | |]; cbn [bind] in *; try discriminate.
      injection Ec as <- <-. idtac. reflexivity. }
    assert (Hl2 : nlen (docs0 ++ docs1) + nlen (requests docs2) < 4294967295) by (unfold nlen in *; rewrite !app_length in *; unfold requests; rewrite map_length; lia).
    split.
    { destruct (completes u c k m n wkc (nlen (docs0 ++ docs1)) (requests docs2) zs O) as (st2 & St2 & Fi2); auto.
      { change (2 ^ 32) with 4294967296. clear - Hn. lia. } { apply (xi_ws _ _ _ _ _ _ _ _ _ _ Ic). }
      destruct Fi2 as (_ & Em2 & _). rewrite <- Lac, <- Xcc in St2.
      eexists. exact (Session u _ docs2 (MkIndexer (x_cfg xc) (x_dmds xc) (x_fnames xc) zs) wkc fn2 dm2 _ st2 _ Eo Ed2 St2 Em2). }
    intros dk2 Sn sorted Hs.
    destruct (docid_place u c k m n sorted F Hs _ _ Hi2) as (ixc & Eic & Pl & Be).
    { rewrite !all_docs_cons. fold docs0. rewrite <- app_assoc. exact Fit. }
    assert (Eall : all_docs (docs2 :: docs1 :: ss) = docs0 ++ docs1 ++ docs2) by (rewrite !all_docs_cons; fold docs0; rewrite <- app_assoc; reflexivity). rewrite Eall in Pl, Be.
    inversion Sn as [x2 ws2 fn2' dm2' ids2 st2 j2 Eo2 Ed2' St2 Em2 Edk]; subst dk2. rewrite Eo in Eo2. injection Eo2 as <- <-. cbn [x_cfg x_fnames x_dmds x_shards] in *.
    rewrite Ed2 in Ed2'. injection Ed2' as <- <- <-. rewrite Lac, Xcc in St2.
    destruct (start_workers_good u c k m n wkc O (xi_ws _ _ _ _ _ _ _ _ _ _ Ic)) as (Gwc & Lwc).
    unfold session_steps, session_start in St2. rewrite En, Es in St2.
    destruct (run_prefix serve_post u k m n Hk Hm Hn0 ltac:(lia) (requests docs2) w2 (nlen (docs0 ++ docs1)) wkc zs Gwc Lz Hl2 (words_of_requests _ _ _ W2) st2 St2) as (Lsv2 & _).
    destruct (run_complete serve_post u k m n Hk Hm Hn0 ltac:(lia) (requests docs2) w2 (nlen (docs0 ++ docs1)) wkc zs Gwc Lz Hl2 (words_of_requests _ _ _ W2) st2 _ St2 Em2) as (_ & Y2).
    set (ys := map shard_close (map v_shard (s_servers st2))) in *.
    assert (Lys : length ys = n) by (unfold ys; rewrite !map_length; exact Lsv2).
    destruct (for_shards_spec (shard_open sorted) (fun j si => forall s, (s < num_slots)%nat -> reads (si_file si) (new_posts (nth s (si_heads si) (-1)%Z)) (shifted wss w1 w2 (N.of_nat s * N.of_nat n + N.of_nat j))) ys 0 n Lys)
      as (sis & Esi & Lsi & Nsi).
    { intros j iix pos Ej. cbn [Nat.add]. assert (Lj : (j < n)%nat) by (rewrite <- Lys; eapply nth_len, Ej). unfold ys in Ej. rewrite !nth_error_map in Ej.
      destruct (nth_error (s_servers st2) j) as [sv|] eqn:Esv; [|discriminate]. cbn [option_map] in Ej. destruct (nth_ex zs j) as [z Ezj]; [rewrite Lz; exact Lj|].
      rewrite (Y2 j sv z Esv Ezj) in Ej. rewrite EN1 in Ej. fold (later j) in Ej. change (fold_left serve_post (later j) z) with (serve_batch z (later j)) in Ej.
      destruct (Nz j z Ezj) as (y & E1 & log & J & Fl & Sz & Ea). cbn [Nat.add] in E1, J, Ea.
      assert (SC : forall s, (s < num_slots)%nat -> content_of (old (hist j) (more j) ++ map (shift (lag (hist j) (more j))) (later j)) s = shifted wss w1 w2 (N.of_nat s * N.of_nat n + N.of_nat j))
        by (intros s Ls; exact (slot_content wss w1 w2 j s Lj Ls Ln Small)).
      destruct (stale_reads y log (hist j) (more j) J Fl Sz (Bd j Lj) sorted (later j)) as (z' & si & Ea' & Eo' & R).
      { intros s. destruct (Nat.lt_ge_cases s num_slots) as [Ls|Ls].
        - rewrite (SC s Ls). unfold shifted. pose proof (kept_len wss w1 (N.of_nat s * N.of_nat n + N.of_nat j)) as X1.
          pose proof (carriers_len (word_hash u) k m n (N.of_nat s * N.of_nat n + N.of_nat j) w2 (nlen (wss ++ w1))) as X2. clear - X1 X2 Ln. unfold nlen in *. rewrite !app_length, map_length in *. lia.
        - unfold content_of.   rewrite (posted_none (word_hash u) n Hn0 s _ Ls). clear. cbn [squeeze nlen length]. unfold nlen. cbn [length]. lia. }
      rewrite Ea in Ea'. injection Ea' as <-. assert (Ej2 : shard_close (serve_batch z (later j)) = (iix, pos)) by congruence. rewrite Ej2 in Eo'. cbn [fst snd] in Eo'. exists si. split; [exact Eo'|]. intros s Ls. rewrite <- (SC s Ls). apply R, Ls. }
    assert (Eix : open_index sorted (MkDisk (Some (x_cfg xc)) (adder_close dm2) (Some (fn_write fn2)) ys) = Ok (MkIndex c (ix_dmd ixc) (ix_fnames ixc) sis)).
    { inversion Sc as [x3 ws3 fn3 dm3 ids3 st3 j3 E3 Ed3 St3 Em3 Edk3]; subst dk2c. rewrite Ec in E3. injection E3 as <- <-. rewrite Ed2 in Ed3. injection Ed3 as <- <- <-.
      unfold open_index, read_config in Eic |- *. cbn [k_cfg k_dmd k_fnames k_shards] in *. rewrite Xcc in *. rewrite (check_ok c k m n O Hn) in *. cbn [bind] in *.
      destruct (read_some Ok _) as [g| | |]; cbn [bind] in *; try discriminate. destruct (read_some read_fnames _) as [f| | |]; cbn [bind] in *; try discriminate.
      destruct (cf_numshards c <? 0)%Z; [discriminate|]. rewrite En, Esi. cbn [bind]. match type of Eic with context [for_shards ?a ?b ?d] => destruct (for_shards a b d) as [sis'| | |] end; cbn [bind] in *; try discriminate. injection Eic as <-. reflexivity. }
    exists (MkIndex c (ix_dmd ixc) (ix_fnames ixc) sis). split; [exact Eix|].
    intros grow fuel blot Lf. set (ids := shifted wss w1 w2 (blot mod (N.of_nat n * 65536))).
    pose proof (shard_small c k m n F blot) as Lj. pose proof (slot_small n blot) as Ls.
    destruct (nth_ex sis (QueryP.shard_of n blot)) as [si Ej]; [rewrite Lsi; exact Lj|].
    pose proof (Nsi _ si Ej _ Ls) as Rd. cbn [Nat.add] in Rd. rewrite (blot_slot n Hn0 blot) in Rd. fold ids in Rd.
    assert (Eg : query_get grow (MkIndex c (ix_dmd ixc) (ix_fnames ixc) sis) fuel blot None =
      get_loop grow (MkIndex c (ix_dmd ixc) (ix_fnames ixc) sis) fuel false (si_file si) (new_posts (nth (QueryP.slot_of n blot) (si_heads si) (-1)%Z)) None).
    { unfold query_get, get_address. cbn [ix_shards]. assert (u32 (nlen sis) = N.of_nat n) as -> by (unfold u32, nlen; rewrite Lsi; apply N.mod_small; clear - Hn; lia).
      destruct (N.eqb_spec (N.of_nat n) 0) as [X|_]; [clear - X Hn0; lia|]. cbn [bind]. fold (QueryP.shard_of n blot). rewrite Ej. reflexivity. }
    assert (Li : (length ids < fuel)%nat).
    { unfold ids, shifted. rewrite app_length, map_length. pose proof (kept_len wss w1 (blot mod (N.of_nat n * 65536))) as X1.
      pose proof (carriers_len (word_hash u) k m n (blot mod (N.of_nat n * 65536)) w2 (nlen (wss ++ w1))) as X2. clear - X1 X2 Lf Lw0 Lw1 Lw2. rewrite !app_length in *. lia. }
    assert (Dd : forall d, docid2doc (MkIndex c (ix_dmd ixc) (ix_fnames ixc) sis) d = docid2doc ixc d) by reflexivity.
    rewrite Eg. split.
    - intros Fo. destruct (get_loop_free grow (MkIndex c (ix_dmd ixc) (ix_fnames ixc) sis) (place_of (docs0 ++ docs1 ++ docs2)) (si_file si) ids fuel _ None Rd) as (ds & E1 & _ & E2); [|exact Logic.I|exact Li|].
      + intros d Hd. rewrite Dd. apply Pl. rewrite Forall_forall in Fo. apply Fo, Hd.
      + exists ds. split; [exact E1|]. unfold docs_keys. rewrite E2. cbn [docs_list app]. rewrite map_map. apply map_ext. intros d. destruct (place_of _ d) as [[a b] e]. reflexivity.
    - intros Fo Nf. apply (get_loop_beyond grow _ (place_of (docs0 ++ docs1 ++ docs2)) (si_file si) ids); [exact Rd|exact Logic.I|exact Li| |].
      + intros d Hd. rewrite Dd. rewrite Forall_forall in Fo. specialize (Fo d Hd). destruct (N.le_gt_cases d (nlen (docs0 ++ docs1 ++ docs2))) as [X|X]; [left; apply Pl; lia|right; apply Be, X].
      + assert (X : Exists (fun d => ~ 1 <= d <= nlen (docs0 ++ docs1 ++ docs2)) ids).
        { apply neg_Forall_Exists_neg; [|exact Nf]. intros d. destruct (1 <=? d) eqn:X1; [|right; lia]. destruct (d <=? nlen (docs0 ++ docs1 ++ docs2)) eqn:X2; [left|right]; lia. }
        apply Exists_exists in X. destruct X as (d & Hd & Nd). exists d. split; [exact Hd|]. rewrite Dd. apply Be. rewrite Forall_forall in Fo. specialize (Fo d Hd). lia.
  Qed.
End A.
