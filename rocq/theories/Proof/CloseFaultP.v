(** What Close leaves when calls fail. *)
From Verif Require Import Model.Base Model.Varint Model.Utf8 Model.Token Model.Blotter Model.Post Model.Poster Model.Shatter Model.Shard Model.Dmd Model.Fnames Model.Conc Model.Config Model.Json Model.Run Model.Index Model.Query Model.Session Model.Crash Model.CloseFault.
From Verif Require Import Proof.Tactics.
Local Open Scope N_scope.

(** The calls made are those of [o] before [o']; [ok]: all of them succeeded. *)
Definition uses (o o' : calls) (ok : bool) : Prop := exists used, o = used ++ o' /\ (ok = true <-> Forall (fun r => r = None) used).
Lemma uses_none o : uses o o true.
Proof. exists []. split; [reflexivity|]. split; auto. Qed.
Lemma call_ok o o' : call o = (None, o') -> uses o o' true.
Proof.
  destruct o as [|r o]; cbn [call]; intros E; inversion E; subst; [apply uses_none|]. exists [None]. split; [reflexivity|]. split; auto.
Qed.
Lemma call_bad o o' k : call o = (Some k, o') -> uses o o' false.
Proof.
  destruct o as [|r o]; cbn [call]; intros E; inversion E; subst; clear E. exists [Some k]. split; [reflexivity|].
  split; [discriminate|]. intros H. inversion H. discriminate.
Qed.
Lemma uses_trans o o1 o2 ok : uses o o1 true -> uses o1 o2 ok -> uses o o2 ok.
Proof.
  intros (a & -> & Ha) (b & -> & Hb). exists (a ++ b). split; [rewrite app_assoc; reflexivity|]. rewrite Hb, Forall_app. intuition.
Qed.

Lemma write_c_spec f off d o f' o' ok : write_c f off d o = (f', o', ok) ->
  uses o o' ok /\ (ok = true -> f' = pwrite f off d) /\ (ok = false -> exists k, f' = pwrite f off (firstn k d)).
Proof.
  unfold write_c. destruct (call o) as [[k|] o1] eqn:E; intros X; injection X as <- <- <-.
  - split; [eapply call_bad, E|]. split; [discriminate|]. intros _. exists k. reflexivity.
  - split; [eapply call_ok, E|]. split; [reflexivity|discriminate].
Qed.
Lemma appends_c_spec ws : forall f o f' o' ok, appends_c ws f o = (f', o', ok) ->
  uses o o' ok /\ (ok = true -> f' = f ++ concat ws) /\ exists pre post, concat ws = pre ++ post /\ f' = f ++ pre.
Proof.
  induction ws as [|w ws IH]; intros f o f' o' ok E; cbn [appends_c concat] in *.
  - injection E as <- <- <-. rewrite app_nil_r. split; [apply uses_none|]. split; [reflexivity|]. exists [], []. rewrite !app_nil_r. auto.
  - destruct (call o) as [[k|] o1] eqn:Ec.
    + injection E as <- <- <-. split; [eapply call_bad, Ec|]. split; [discriminate|]. exists (firstn k w), (skipn k w ++ concat ws).
      rewrite app_assoc, firstn_skipn. auto.
    + destruct (IH _ _ _ _ _ E) as (U & T & pre & post & Ep & Ef). split; [eapply uses_trans; [eapply call_ok, Ec|exact U]|].
      split; [intros K; rewrite (T K), app_assoc; reflexivity|]. exists (w ++ pre), post. rewrite Ep, Ef, !app_assoc. auto.
Qed.

Lemma wops_cut_app a b : forall f f', wops_cut b (apply_wops f a) f' -> wops_cut (a ++ b) f f'.
Proof. induction a as [|[off d] a IH]; intros f f' H; cbn [app]; [exact H|]. apply cut_later, IH. exact H. Qed.
Lemma wops_cut_more a b f f' : wops_cut a f f' -> wops_cut (a ++ b) f f'.
Proof. induction 1; cbn [app]; [apply cut_here|apply cut_in|apply cut_later; assumption]. Qed.
Lemma wops_cut_firstn off d ws f k : wops_cut ((off, d) :: ws) f (pwrite f off (firstn k d)).
Proof. rewrite <- (firstn_skipn k d) at 1. apply cut_in. Qed.
Lemma wops_cut_all ws f : wops_cut ws f (apply_wops f ws).
Proof. rewrite <- (app_nil_r ws) at 1. apply wops_cut_app, cut_here. Qed.
Lemma apply_wops_app a b f : apply_wops f (a ++ b) = apply_wops (apply_wops f a) b.
Proof. apply fold_left_app. Qed.

Lemma flush_to_c_spec p f o p' f' o' ok : flush_to_c p f o = (p', f', o', ok) -> uses o o' ok /\
  (ok = true -> p' = fst (flush_to p f) /\ f' = apply_wops f (snd (flush_to p f))) /\ (ok = false -> wops_cut (snd (flush_to p f)) f f').
Proof.
  unfold flush_to_c, flush_to. destruct (p_posts p) as [|b ps] eqn:Ep.
  { intros X. injection X as <- <- <- <-. split; [apply uses_none|]. split; [auto|discriminate]. }
  rewrite <- Ep. clear Ep b ps. destruct (call o) as [[k|] o1] eqn:E1.
  { intros X. injection X as <- <- <- <-. split; [eapply call_bad, E1|]. split; [discriminate|]. intros _. apply cut_here. }
  pose proof (call_ok _ _ E1) as U1. cbn [fst snd]. set (linked := negb (p_link p =? -1)%Z). intros X.
  set (w1 := if linked then [(Z.to_nat (p_link p), put_be64 (u64_of_i64 (Z.of_nat (length f))))] else []).
  match type of X with (let '(_, _) := ?e in _) = _ => destruct e as [[[p1 f1] o2] ok1] eqn:E2 end.
  assert (S2 : uses o1 o2 ok1 /\ p_posts p1 = p_posts p /\ p_current p1 = p_current p /\ p_total p1 = p_total p /\
    (ok1 = true -> f1 = apply_wops f w1 /\ p_head p1 = if linked then p_head p else Z.of_nat (length f)) /\ (ok1 = false -> wops_cut w1 f f1)).
  { unfold w1. destruct linked.
    - destruct (write_c f (Z.to_nat (p_link p)) (put_be64 (u64_of_i64 (Z.of_nat (length f)))) o1) as [[f2 o3] ok2] eqn:E3. injection E2 as <- <- <- <-.
      destruct (write_c_spec _ _ _ _ _ _ _ E3) as (U & T & Fa). split; [exact U|]. split; [reflexivity|]. split; [reflexivity|]. split; [reflexivity|].
      split; [intros K; rewrite (T K); auto|]. intros K. destruct (Fa K) as [k ->]. apply wops_cut_firstn.
    - injection E2 as <- <- <- <-. cbn [p_posts p_current p_total p_head]. split; [apply uses_none|]. repeat (split; [reflexivity|]). split; [auto|discriminate]. }
  destruct S2 as (U2 & P1 & P2 & P3 & T2 & F2). destruct ok1; cbn [negb] in X.
  2:{ injection X as <- <- <- <-. split; [eapply uses_trans; eauto|]. split; [discriminate|]. intros _. apply wops_cut_more, F2. reflexivity. }
  destruct (T2 eq_refl) as [Ef1 Eh]. clear T2 F2. pose proof (uses_trans _ _ _ _ U1 U2) as U12.
  destruct (call o2) as [[k|] o3] eqn:E3.
  { injection X as <- <- <- <-. split; [eapply uses_trans; [exact U12|eapply call_bad, E3]|]. split; [discriminate|]. intros _. rewrite Ef1. apply wops_cut_app, cut_here. }
  pose proof (uses_trans _ _ _ _ U12 (call_ok _ _ E3)) as U13. rewrite P1, P2, P3, Eh in X.
  match type of X with (let '(_, _) := ?e in _) = _ => destruct e as [[f2 o4] ok2] eqn:E4 end.
  destruct (write_c_spec _ _ _ _ _ _ _ E4) as (U4 & T4 & F4). destruct ok2; cbn [negb] in X.
  2:{ injection X as <- <- <- <-. split; [eapply uses_trans; eauto|]. split; [discriminate|]. intros _. apply wops_cut_app. rewrite <- Ef1.
      destruct (F4 eq_refl) as [k ->]. apply wops_cut_firstn. }
  pose proof (uses_trans _ _ _ _ U13 U4) as U14. specialize (T4 eq_refl).
  match type of X with (let '(_, _) := ?e in _) = _ => destruct e as [[f3 o5] ok3] eqn:E5 end.
  destruct (write_c_spec _ _ _ _ _ _ _ E5) as (U5 & T5 & F5). pose proof (uses_trans _ _ _ _ U14 U5) as U15. destruct ok3; cbn [negb] in X; cbn [p_head p_current p_total] in X; injection X as <- <- <- <-.
  - split; [exact U15|]. split; [|discriminate]. intros _. rewrite apply_wops_app, <- Ef1, (T5 eq_refl), T4. auto.
  - split; [exact U15|]. split; [discriminate|]. intros _. apply wops_cut_app. rewrite <- Ef1. apply cut_later. rewrite <- T4.
    destruct (F5 eq_refl) as [k ->]. apply wops_cut_firstn.
Qed.
Lemma flush_ind_c_spec n : forall i x o x' o' ok, flush_ind_c n i x o = (x', o', ok) -> uses o o' ok /\
  (ok = true -> x' = fst (flush_ind_w n i x)) /\ wops_cut (snd (flush_ind_w n i x)) (x_file x) (x_file x').
Proof.
  induction n as [|n IH]; intros i x o x' o' ok E; cbn [flush_ind_c flush_ind_w] in *.
  { injection E as <- <- <-. split; [apply uses_none|]. split; [auto|]. apply cut_here. }
  destruct (nth_error (x_ind x) i) as [po|].
  2:{ injection E as <- <- <-. split; [apply uses_none|]. split; [auto|]. apply cut_here. }
  destruct (flush_to_c po (x_file x) o) as [[[po1 f1] o1] ok1] eqn:E1. destruct (flush_to_c_spec _ _ _ _ _ _ _ E1) as (U & T & Fa).
  destruct (flush_to po (x_file x)) as [po2 ws]. cbn [fst snd] in *.
  destruct (flush_ind_w n (S i) (MkShard (upd i po2 (x_ind x)) (apply_wops (x_file x) ws))) as [x2 ws2] eqn:E2. cbn [fst snd].
  destruct ok1; cbn [negb] in E.
  - destruct (T eq_refl) as [-> ->]. destruct (IH _ _ _ _ _ _ E) as (U2 & T2 & C2). rewrite E2 in T2, C2. cbn [fst snd x_file] in *.
    split; [eapply uses_trans; eauto|]. split; [exact T2|]. apply wops_cut_app, C2.
  - injection E as <- <- <-. cbn [x_file]. split; [exact U|]. split; [discriminate|]. apply wops_cut_more, Fa. reflexivity.
Qed.
Lemma shard_close_c_spec x iix o t f o' ok : shard_close_c x iix o = (t, f, o', ok) -> uses o o' ok /\
  (ok = true -> t = Some (fst (shard_close x)) /\ f = Some (snd (shard_close x))) /\ closing x iix (t, f).
Proof.
  unfold shard_close_c. destruct (flush_ind_c (length (x_ind x)) 0 x o) as [[x1 o1] ok1] eqn:E1.
  destruct (flush_ind_c_spec _ _ _ _ _ _ _ E1) as (U & T & C). destruct ok1; cbn [negb].
  2:{ intros E. injection E as <- <- <- <-. split; [exact U|]. split; [discriminate|]. apply closing_flush, C. }
  assert (x1 = flush_ind x) as -> by (apply T; reflexivity). unfold flush_iix_c. destruct (call o1) as [[k|] o2] eqn:E2.
  { intros E. injection E as <- <- <- <-. split; [eapply uses_trans; [exact U|eapply call_bad, E2]|]. split; [discriminate|]. apply closing_flush, C. }
  destruct (appends_c (iix_writes (x_ind (flush_ind x))) [] o2) as [[t1 o3] ok3] eqn:E3. intros E. injection E as <- <- <- <-.
  destruct (appends_c_spec _ _ _ _ _ _ E3) as (U3 & T3 & pre & post & Ep & Et). cbn [app] in *.
  split; [eapply uses_trans; [exact U|eapply uses_trans; [eapply call_ok, E2|exact U3]]|]. unfold shard_close. cbn [fst snd].
  split; [intros K; rewrite (T3 K); auto|]. subst t1. apply (closing_table x iix pre post). exact Ep.
Qed.

(** The same of every shard's goroutine. *)
Inductive all_use : list calls -> list calls -> bool -> Prop :=
  | all_nil : all_use [] [] true
  | all_cons o o' ok os os' oks : uses o o' ok -> all_use os os' oks -> all_use (o :: os) (o' :: os') (ok && oks).
Lemma all_none os : all_use os os true.
Proof. induction os as [|o os IH]; [constructor|]. apply (all_cons o o true os os true); [apply uses_none|exact IH]. Qed.
Lemma shards_close_c_spec xs : forall old os fs os' ok, length old = length xs -> length os = length xs -> shards_close_c xs old os = (fs, os', ok) ->
  all_use os os' ok /\ (ok = true -> fs = map (fun p => (Some (fst p), Some (snd p))) (map shard_close xs)) /\ shards_at closing xs old fs.
Proof.
  induction xs as [|x xs IH]; intros [|p old] [|o os] fs os' ok L1 L2 E; cbn [length] in L1, L2; try discriminate; cbn [shards_close_c] in E.
  - injection E as <- <- <-. split; [constructor|]. split; [reflexivity|]. exact I.
  - destruct (shard_close_c x (fst p) o) as [[[t f] o1] ok1] eqn:E1. destruct (shards_close_c xs old os) as [[fs2 os2] ok2] eqn:E2.
    injection E as <- <- <-. destruct (shard_close_c_spec _ _ _ _ _ _ _ E1) as (U & T & C). destruct (IH old os fs2 os2 ok2 ltac:(congruence) ltac:(congruence) E2) as (U2 & T2 & C2).
    split; [constructor; assumption|]. split; [|cbn [shards_at]; split; assumption]. intros K. apply andb_true_iff in K. destruct K as [K1 K2].
    destruct (T K1) as [-> ->]. rewrite (T2 K2). reflexivity.
Qed.
Lemma shards_open_at xs : forall old, length old = length xs -> shards_at (fun x iix p => p = (iix, Some (x_file x))) xs old (shards_open xs old).
Proof. induction xs as [|x xs IH]; intros [|p old] L; cbn [length] in L; try discriminate; cbn [shards_open shards_at]; [exact I|]. split; [reflexivity|]. apply IH. congruence. Qed.

Lemma config_write_c_spec old c o f o' ok : config_write_c old c o = (f, o', ok) -> uses o o' ok /\
  (ok = true -> f = Some (config_write old c)) /\
  (ok = false -> f = old \/ exists g, f = Some g /\ wops_cut [(0%nat, marshal c); (length (marshal c), [10])] (match old with Some b => b | None => [] end) g).
Proof.
  unfold config_write_c, config_write. destruct (call o) as [[k|] o1] eqn:E1.
  { intros E. injection E as <- <- <-. split; [eapply call_bad, E1|]. split; [discriminate|]. auto. }
  generalize (marshal c). intros d. set (f0 := match old with None => [] | Some f => f end).
  destruct (write_c f0 0 d o1) as [[f1 o2] ok1] eqn:E2. destruct (write_c_spec _ _ _ _ _ _ _ E2) as (U2 & T2 & F2).
  pose proof (uses_trans _ _ _ _ (call_ok _ _ E1) U2) as U12. destruct ok1; cbn [negb].
  2:{ intros E. injection E as <- <- <-. split; [exact U12|]. split; [discriminate|]. intros _. right. exists f1. split; [reflexivity|].
      destruct (F2 eq_refl) as [k ->]. apply wops_cut_firstn. }
  destruct (write_c f1 (length d) [10] o2) as [[f2 o3] ok2] eqn:E3. destruct (write_c_spec _ _ _ _ _ _ _ E3) as (U3 & T3 & F3).
  intros E. injection E as <- <- <-. split; [eapply uses_trans; eauto|]. split; [intros K; rewrite (T3 K), (T2 eq_refl); reflexivity|].
  intros K. right. exists f2. split; [reflexivity|]. apply cut_later. rewrite <- (T2 eq_refl). destruct (F3 K) as [k ->]. apply wops_cut_firstn.
Qed.
Lemma write_files_c_spec old fn o f o' ok : write_files_c old fn o = (f, o', ok) -> uses o o' ok /\
  (ok = true -> f = Some (fn_write fn)) /\ (ok = false -> f = old \/ exists pre post, fn_write fn = pre ++ post /\ f = Some pre).
Proof.
  unfold write_files_c. destruct (call o) as [[k|] o1] eqn:E1.
  { intros E. injection E as <- <- <-. split; [eapply call_bad, E1|]. split; [discriminate|]. auto. }
  destruct (appends_c (fn_writes fn) [] o1) as [[f1 o2] ok1] eqn:E2. destruct (appends_c_spec _ _ _ _ _ _ E2) as (U2 & T2 & pre & post & Ep & Ef).
  intros E. injection E as <- <- <-. cbn [app] in *. split; [eapply uses_trans; [eapply call_ok, E1|exact U2]|]. split; [intros K; rewrite (T2 K); reflexivity|].
  intros _. right. exists pre, post. subst f1. auto.
Qed.
Lemma adder_close_c_spec dm o f o' ok : adder_close_c dm o = (f, o', ok) -> uses o o' ok /\
  (ok = true -> f = adder_close dm) /\ (ok = false -> close_cut dm f).
Proof.
  destruct dm as [a file]. unfold adder_close_c, adder_close. destruct (a_buf a) as [|b bs] eqn:Eb.
  { intros E. injection E as <- <- <-. split; [apply uses_none|]. split; [reflexivity|discriminate]. }
  destruct (call o) as [[k|] o1] eqn:E1.
  { intros E. injection E as <- <- <-. split; [eapply call_bad, E1|]. split; [discriminate|]. intros _. apply close_cut_no. }
  assert (Ne : a_buf (fst (a, file)) <> []) by (cbn [fst]; congruence).
  assert (Ea : forall w, Some (match file with None => [] | Some f => f end ++ w) = file_append file w) by (intros w; destruct file; reflexivity).
  destruct (call o1) as [[k|] o2] eqn:E2; pose proof (call_ok _ _ E1) as U1.
  { intros E. injection E as <- <- <-. split; [eapply uses_trans; [exact U1|eapply call_bad, E2]|]. split; [discriminate|]. intros _. apply close_cut_flush; [exact Ne|].
    rewrite <- (app_nil_r (match file with None => [] | Some f => f end)), Ea. apply (flush_cut_at (a, file) [] (concat (flush_writes a))). reflexivity. }
  destruct (appends_c (flush_writes a) (match file with None => [] | Some f => f end) o2) as [[f1 o3] ok3] eqn:E3.
  destruct (appends_c_spec _ _ _ _ _ _ E3) as (U3 & T3 & pre & post & Ep & Ef). intros E. injection E as <- <- <-.
  split; [eapply uses_trans; [exact U1|eapply uses_trans; [eapply call_ok, E2|exact U3]]|]. cbn [adder_flush snd].
  split; [intros K; rewrite (T3 K); apply Ea|]. intros _. apply close_cut_flush; [exact Ne|]. subst f1. rewrite Ea.
  apply (flush_cut_at (a, file) pre post). exact Ep.
Qed.

(** Close as a whole. *)
Lemma indexer_close_c_spec x xs old fn dm o os fs o' os' ok : length (w_shards old) = length xs -> length os = length xs ->
  indexer_close_c (x_cfg x) xs old fn dm o os = (fs, o', os', ok) ->
  (exists ok1 ok2, uses o o' ok1 /\ all_use os os' ok2 /\ ok = ok1 && ok2) /\
  (ok = true -> fs = MkFiles (Some (config_write (w_cfg old) (x_cfg x))) (adder_close dm) (Some (fn_write fn)) (map (fun p => (Some (fst p), Some (snd p))) (map shard_close xs))) /\
  (ok = false -> fs = MkFiles (w_cfg old) (snd dm) (w_fnames old) (shards_open xs (w_shards old)) \/ stopped_close x xs old fn dm fs).
Proof.
  intros L1 L2. unfold indexer_close_c. pose proof (shards_open_at xs _ L1) as Op.
  destruct (config_write_c (w_cfg old) (x_cfg x) o) as [[cfg o1] ok1] eqn:E1. destruct (config_write_c_spec _ _ _ _ _ _ E1) as (U1 & T1 & F1).
  destruct ok1; cbn [negb].
  2:{ intros E. injection E as <- <- <- <-. split; [exists false, true; split; [exact U1|]; split; [apply all_none|reflexivity]|]. split; [discriminate|].
      intros _. destruct (F1 eq_refl) as [->|(g & -> & C)]; [left; reflexivity|]. right. apply close_cfg; assumption. }
  rewrite (T1 eq_refl). clear T1 F1.
  assert (Full : wops_cut [(0%nat, marshal (x_cfg x)); (length (marshal (x_cfg x)), [10])] (match w_cfg old with Some b => b | None => [] end) (config_write (w_cfg old) (x_cfg x))).
  { apply (wops_cut_all [(0%nat, marshal (x_cfg x)); (length (marshal (x_cfg x)), [10])]). }
  destruct (write_files_c (w_fnames old) fn o1) as [[nm o2] ok2] eqn:E2. destruct (write_files_c_spec _ _ _ _ _ _ E2) as (U2 & T2 & F2).
  pose proof (uses_trans _ _ _ _ U1 U2) as U12. destruct ok2; cbn [negb].
  2:{ intros E. injection E as <- <- <- <-. split; [exists false, true; split; [exact U12|]; split; [apply all_none|reflexivity]|]. split; [discriminate|].
      intros _. right. destruct (F2 eq_refl) as [->|(pre & post & Ep & ->)]; [apply close_cfg; assumption|]. eapply close_fnames; eassumption. }
  rewrite (T2 eq_refl). clear T2 F2.
  destruct (adder_close_c dm o2) as [[dmd o3] ok3] eqn:E3. destruct (adder_close_c_spec _ _ _ _ _ E3) as (U3 & T3 & F3).
  pose proof (uses_trans _ _ _ _ U12 U3) as U13. destruct ok3; cbn [negb].
  2:{ intros E. injection E as <- <- <- <-. split; [exists false, true; split; [exact U13|]; split; [apply all_none|reflexivity]|]. split; [discriminate|].
      intros _. right. apply close_dmd; auto. }
  rewrite (T3 eq_refl). destruct (shards_close_c xs (w_shards old) os) as [[sh os4] ok4] eqn:E4. intros E. injection E as <- <- <- <-.
  destruct (shards_close_c_spec _ _ _ _ _ _ L1 L2 E4) as (U4 & T4 & C4). split; [exists true, ok4; auto|]. split; [intros K; rewrite (T4 K); reflexivity|].
  intros _. right. apply close_shards, C4.
Qed.
