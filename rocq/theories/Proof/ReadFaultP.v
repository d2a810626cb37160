(** Queries with failing reads (Model/ReadFault). *)
From Verif Require Import Model.Base Model.Address Model.Post Model.Poster Model.Shard Model.Dmd Model.Fnames Model.Config Model.Index Model.Query Model.ReadFault.
From Verif Require Import Spec.Querying Proof.Tactics Proof.QueryP.
Local Open Scope N_scope.

(** [x] comes of a run whose result without failures is [r]. *)
Definition same {A S} (x : attempt A S * list bool) (r : result A) : Prop :=
  match fst x with Did r' => r' = r | Failed _ => True end.

Lemma firstn_upd_self {A} (x : A) : forall m l, firstn m (upd m x l) = firstn m l.
Proof. induction m as [|m IH]; intros [|y l]; cbn [upd firstn]; try reflexivity. now rewrite IH. Qed.
Lemma upd_upd_self {A} (x y : A) : forall k l, upd k x (upd k y l) = upd k x l.
Proof. induction k as [|k IH]; intros [|z l]; cbn [upd]; try reflexivity. now rewrite IH. Qed.

Section R.
  Variables (grow : nat -> nat) (ix : index).

  Lemma posts_next_cases bad ps f : (exists bad', posts_next_r bad ps f = (Failed tt, bad')) \/
    (exists bad', posts_next_r bad ps f = (Did (posts_next ps f), bad')).
  Proof.
    unfold posts_next_r. destruct (_ && _); [|eauto]. destruct bad as [|[] bad]; cbn [next_read]; eauto.
  Qed.
  Lemma docid2doc_cases bad d : (exists bad', docid2doc_r bad ix d = (Failed tt, bad')) \/
    (exists bad', docid2doc_r bad ix d = (Did (docid2doc ix d), bad')).
  Proof. unfold docid2doc_r. destruct bad as [|[] bad]; cbn [next_read]; eauto. Qed.
  Lemma posts_next_nil ps f : posts_next_r [] ps f = (Did (posts_next ps f), []).
  Proof. unfold posts_next_r. destruct (_ && _); reflexivity. Qed.
  Lemma posts_next_spent ps f : exists c, forall bad, posts_next_r (c ++ bad) ps f = (Did (posts_next ps f), bad).
  Proof. unfold posts_next_r. destruct (_ && _); [exists [false]|exists []]; reflexivity. Qed.
  Lemma docid2doc_spent d bad : docid2doc_r (false :: bad) ix d = (Did (docid2doc ix d), bad).
  Proof. reflexivity. Qed.

  (** Whatever fails: an error, or the result without failures. *)
  Lemma get_loop_same f lim : forall fuel bad ps ds, same (get_loop_r grow ix fuel bad lim f ps ds) (get_loop grow ix fuel lim f ps ds).
  Proof.
    induction fuel as [|k IH]; intros bad ps ds; cbn [get_loop_r get_loop]; [reflexivity|].
    destruct (_ && _); [reflexivity|]. destruct (posts_next_cases bad ps f) as [(bad' & ->)|(bad' & ->)]; [exact Logic.I|].
    destruct (posts_next ps f) as [[d ps']|[]| |]; try reflexivity.
    destruct (docid2doc_cases bad' d) as [(bad2 & ->)|(bad2 & ->)]; [exact Logic.I|].
    destruct (docid2doc ix d) as [[[p s] e]|e| |]; cbn [bind]; try reflexivity.
    destruct (put_doc grow lim ds p s e) as [ds'|e'| |]; cbn [bind]; try reflexivity. apply IH.
  Qed.
  Lemma fill_loop_same f lim : forall fuel bad ps ds, same (fill_loop_r grow ix fuel bad lim f ps ds) (fill_loop grow ix fuel lim f ps ds).
  Proof.
    induction fuel as [|k IH]; intros bad ps ds; cbn [fill_loop_r fill_loop]; [reflexivity|].
    destruct (_ && _); [reflexivity|]. destruct (posts_next_cases bad ps f) as [(bad' & ->)|(bad' & ->)]; [exact Logic.I|].
    destruct (posts_next ps f) as [[d ps']|[]| |]; try reflexivity.
    destruct (docid2doc_cases bad' d) as [(bad2 & ->)|(bad2 & ->)]; [exact Logic.I|].
    destruct (docid2doc ix d) as [[[p s] e]|e| |]; cbn [bind]; try reflexivity.
    destruct (put_doc grow lim ds p s e) as [ds'|e'| |]; cbn [bind]; try reflexivity. apply IH.
  Qed.
  Lemma query_get_same fuel bad blot ds : same (query_get_r grow ix fuel bad blot ds) (query_get grow ix fuel blot ds).
  Proof.
    unfold query_get_r, query_get. destruct (get_address _ _) as [[s b]|e| |]; cbn [bind]; try reflexivity.
    destruct (nth_error _ _); [|reflexivity]. apply get_loop_same.
  Qed.
  Lemma fill_blot_same fuel bad q e src pos : same (fill_blot_r grow ix fuel bad q e src pos) (fill_blot grow ix fuel q e src pos).
  Proof.
    unfold fill_blot_r, fill_blot. destruct (nth_error _ _) as [s|]; [|reflexivity]. cbv zeta.
    pose proof (fill_loop_same (si_file s) (negb (is_nil (be_docs e))) fuel bad (rs_posts src) (be_docs e)) as H.
    unfold same in *. destruct (fill_loop_r _ _ _ _ _ _ _ _) as [[x|[ds ps]] bad']; cbn [fst] in *; [|exact Logic.I].
    subst x. destruct (fill_loop _ _ _ _ _ _ _) as [[[ds ps] eof]|e'| |]; cbn [bind]; try reflexivity.
  Qed.
  Lemma next_iter_same fuel bad r : same (next_iter_r grow ix fuel bad r) (next_iter grow ix fuel r).
  Proof.
    unfold next_iter_r, next_iter. destruct (nth_error (r_dst r) _) as [e|]; [|reflexivity].
    destruct (nth_error (q_states _) _) as [[rs|]|]; [|cbv zeta; destruct (_ =? _); reflexivity|reflexivity]. cbv zeta.
    pose proof (fill_blot_same fuel bad (r_q r) e rs (N.to_nat (q_i (r_q r)))) as H. unfold same in *.
    destruct (fill_blot_r _ _ _ _ _ _ _ _) as [[x|[e' q']] bad']; cbn [fst] in *; [|exact Logic.I].
    subst x. reflexivity.
  Qed.
  Lemma next_loop_same fuel : forall k bad r, same (next_loop_r grow ix fuel k bad r) (next_loop grow ix fuel k r).
  Proof.
    induction k as [|k IH]; intros bad r; cbn [next_loop_r next_loop]; [reflexivity|].
    pose proof (next_iter_same fuel bad r) as H. unfold same in H.
    destruct (next_iter_r _ _ _ _ _) as [[x|r'] bad']; cbn [fst] in *; [|exact Logic.I].
    subst x. destruct (next_iter _ _ _ _) as [[r1 []]|e| |]; cbn [bind]; try reflexivity. apply IH.
  Qed.

  (** A run during which nothing fails, and how many reads it has. *)
  Definition spends {A S} (x : list bool -> attempt A S * list bool) (r : result A) : Prop := exists c, forall bad, x (c ++ bad) = (Did r, bad).
  Lemma fill_loop_spends f lim : forall fuel ps ds,
    spends (fun bad => fill_loop_r grow ix fuel bad lim f ps ds) (fill_loop grow ix fuel lim f ps ds).
  Proof.
    unfold spends. induction fuel as [|k IH]; intros ps ds; cbn [fill_loop_r fill_loop]; [exists []; reflexivity|].
    destruct (_ && _); [exists []; reflexivity|]. destruct (posts_next_spent ps f) as (c & Hc).
    destruct (posts_next ps f) as [[d ps']|[]| |]; try (exists c; intros bad; rewrite Hc; reflexivity).
    destruct (docid2doc ix d) as [[[p s] e]|e| |] eqn:Ed; cbn [bind];
      try (exists (c ++ [false]); intros bad; rewrite <- app_assoc, Hc; cbn [app]; rewrite docid2doc_spent, Ed; reflexivity).
    destruct (put_doc grow lim ds p s e) as [ds'|e'| |] eqn:Ep; cbn [bind];
      try (exists (c ++ [false]); intros bad; rewrite <- app_assoc, Hc; cbn [app]; rewrite docid2doc_spent, Ed; cbn [bind]; rewrite Ep; reflexivity).
    destruct (IH ps' ds') as (c2 & H2). exists (c ++ false :: c2). intros bad. rewrite <- app_assoc, Hc. cbn [app].
    rewrite docid2doc_spent, Ed. cbn [bind]. rewrite Ep. apply H2.
  Qed.
  Lemma get_loop_nil f lim : forall fuel ps ds, get_loop_r grow ix fuel [] lim f ps ds = (Did (get_loop grow ix fuel lim f ps ds), []).
  Proof.
    induction fuel as [|k IH]; intros ps ds; cbn [get_loop_r get_loop]; [reflexivity|].
    destruct (_ && _); [reflexivity|]. rewrite posts_next_nil. destruct (posts_next ps f) as [[d ps']|[]| |]; try reflexivity.
    unfold docid2doc_r. cbn [next_read].
    destruct (docid2doc ix d) as [[[p s] e]|e| |]; cbn [bind]; try reflexivity.
    destruct (put_doc grow lim ds p s e) as [ds'|e'| |]; cbn [bind]; try reflexivity. apply IH.
  Qed.
  Lemma query_get_nil fuel blot ds : query_get_r grow ix fuel [] blot ds = (Did (query_get grow ix fuel blot ds), []).
  Proof.
    unfold query_get_r, query_get. destruct (get_address _ _) as [[s b]|e| |]; cbn [bind]; try reflexivity.
    destruct (nth_error _ _); [|reflexivity]. apply get_loop_nil.
  Qed.
  Lemma fill_loop_nil f lim : forall fuel ps ds, fill_loop_r grow ix fuel [] lim f ps ds = (Did (fill_loop grow ix fuel lim f ps ds), []).
  Proof.
    induction fuel as [|k IH]; intros ps ds; cbn [fill_loop_r fill_loop]; [reflexivity|].
    destruct (_ && _); [reflexivity|]. rewrite posts_next_nil. destruct (posts_next ps f) as [[d ps']|[]| |]; try reflexivity.
    unfold docid2doc_r. cbn [next_read].
    destruct (docid2doc ix d) as [[[p s] e]|e| |]; cbn [bind]; try reflexivity.
    destruct (put_doc grow lim ds p s e) as [ds'|e'| |]; cbn [bind]; try reflexivity. apply IH.
  Qed.
  Lemma next_iter_nil fuel r : next_iter_r grow ix fuel [] r = (Did (next_iter grow ix fuel r), []).
  Proof.
    unfold next_iter_r, next_iter. destruct (nth_error (r_dst r) _) as [e|]; [|reflexivity].
    destruct (nth_error (q_states _) _) as [[rs|]|]; [|cbv zeta; destruct (_ =? _); reflexivity|reflexivity]. cbv zeta.
    unfold fill_blot_r, fill_blot. destruct (nth_error _ _) as [s|]; [|reflexivity]. rewrite fill_loop_nil. reflexivity.
  Qed.
  Lemma next_loop_nil fuel : forall k r, next_loop_r grow ix fuel k [] r = (Did (next_loop grow ix fuel k r), []).
  Proof.
    induction k as [|k IH]; intros r; cbn [next_loop_r next_loop]; [reflexivity|]. rewrite next_iter_nil.
    destruct (next_iter _ _ _ _) as [[r1 []]|e| |]; cbn [bind]; try reflexivity. apply IH.
  Qed.
  Lemma next_iter_spends fuel r : spends (fun bad => next_iter_r grow ix fuel bad r) (next_iter grow ix fuel r).
  Proof.
    unfold spends, next_iter_r, next_iter. destruct (nth_error (r_dst r) _) as [e|]; [|exists []; reflexivity].
    destruct (nth_error (q_states _) _) as [[rs|]|]; [|cbv zeta; destruct (_ =? _); exists []; reflexivity|exists []; reflexivity]. cbv zeta.
    unfold fill_blot_r, fill_blot. destruct (nth_error _ _) as [s|]; [|exists []; reflexivity].
    destruct (fill_loop_spends (si_file s) (negb (is_nil (be_docs e))) fuel (rs_posts rs) (be_docs e)) as (c & Hc).
    exists c. intros bad. cbv beta in Hc. rewrite Hc. reflexivity.
  Qed.

  (** The look-up of the i-th document fails. *)
  Lemma put_slot_free ds : docs_wf ds -> docs_wf (put_slot grow false ds) /\ docs_list (put_slot grow false ds) = docs_list ds ++ [zero_doc] /\
    is_nil (put_slot grow false ds) = false.
  Proof. intros W. unfold put_slot. destruct (put_doc_free grow ds [] 0 0 W) as (ds' & -> & A & B & C). auto. Qed.
  Lemma list_len ds : docs_wf ds -> docs_len ds = length (docs_list ds).
  Proof. destruct ds as [[m back]|]; cbn [docs_wf docs_list docs_len]; [|reflexivity]. intros H. rewrite firstn_length. lia. Qed.
  Lemma keys_len ds : docs_wf ds -> docs_len ds = length (docs_keys ds).
  Proof. intros W. unfold docs_keys. rewrite map_length. apply list_len, W. Qed.
  Lemma fill_loop_acc f : forall fuel ps ds ds' ps' eof, docs_wf ds -> fill_loop grow ix fuel false f ps ds = Ok (ds', ps', eof) ->
    eof = true /\ docs_wf ds' /\ exists ks, docs_keys ds' = docs_keys ds ++ ks /\
    (forall d1, docs_wf d1 -> exists d2, fill_loop grow ix fuel false f ps d1 = Ok (d2, ps', true) /\ docs_wf d2 /\ docs_keys d2 = docs_keys d1 ++ ks) /\
    (forall j, (j < length ks)%nat -> exists bad dj psj fuel', fill_loop_r grow ix fuel bad false f ps ds = (Failed (dj, psj), []) /\ docs_wf dj /\
       docs_keys dj = docs_keys ds ++ firstn j ks ++ [([], 0, 0)] /\ is_nil dj = false /\
       (fuel' <= fuel)%nat /\
       forall d1, docs_wf d1 -> exists d2, fill_loop grow ix fuel' false f psj d1 = Ok (d2, ps', true) /\ docs_wf d2 /\ docs_keys d2 = docs_keys d1 ++ skipn (S j) ks).
  Proof.
    induction fuel as [|k IH]; intros ps ds ds' ps' eof W E; cbn [fill_loop] in E; [discriminate|].
    cbn [andb] in E. destruct (posts_next ps f) as [[d ps1]|[]| |] eqn:Ep; try discriminate.
    - destruct (docid2doc ix d) as [[[p s] e]|e| |] eqn:Ed; cbn [bind] in E; try discriminate.
      destruct (put_doc_free grow ds p s e W) as (ds1 & E1 & W1 & L1 & _). rewrite E1 in E. cbn [bind] in E.
      destruct (IH _ _ _ _ _ W1 E) as (-> & W' & ks & K & All & Fail). split; [reflexivity|]. split; [exact W'|].
      exists ((p, s, e) :: ks). split; [|split].
      + rewrite K. unfold docs_keys. rewrite L1, map_app, <- app_assoc. reflexivity.
      + intros d1 Wd. destruct (put_doc_free grow d1 p s e Wd) as (d1' & Ed1 & Wd1 & Ld1 & _).
        destruct (All d1' Wd1) as (d2 & E2 & W2 & K2). exists d2. cbn [fill_loop andb]. rewrite Ep, Ed. cbn [bind]. rewrite Ed1. cbn [bind].
        split; [exact E2|]. split; [exact W2|]. rewrite K2. unfold docs_keys. rewrite Ld1, map_app, <- app_assoc. reflexivity.
      + destruct (posts_next_spent ps f) as (c & Hc). intros [|j] Lj.
        * destruct (put_slot_free ds W) as (Wp & Lp & Np). exists (c ++ [true]), (put_slot grow false ds), ps1, k.
          cbn [fill_loop_r andb]. rewrite Hc, Ep. unfold docid2doc_r. cbn [next_read].
          split; [reflexivity|]. split; [exact Wp|]. split; [unfold docs_keys; rewrite Lp, map_app; reflexivity|]. split; [exact Np|]. split; [lia|].
          cbn [skipn]. exact All.
        * cbn [length] in Lj. destruct (Fail j ltac:(lia)) as (bad & dj & psj & fuel' & Ef & Wj & Kj & Nj & Lf & Aj).
          exists (c ++ false :: bad), dj, psj, fuel'. cbn [fill_loop_r andb]. rewrite Hc, Ep, docid2doc_spent, Ed. cbn [bind]. rewrite E1.
          split; [exact Ef|]. split; [exact Wj|]. split; [|split; [exact Nj|split; [lia|exact Aj]]].
          rewrite Kj. unfold docs_keys. rewrite L1, map_app, <- app_assoc. reflexivity.
    - injection E as <- <- <-. split; [reflexivity|]. split; [exact W|]. exists []. split; [rewrite app_nil_r; reflexivity|]. split.
      + intros d1 W1. exists d1. cbn [fill_loop andb]. rewrite Ep, app_nil_r. auto.
      + intros j Lj. cbn [length] in Lj. lia.
  Qed.

  Lemma fill_loop_fuel f lim : forall fuel fuel' ps ds x, fill_loop grow ix fuel lim f ps ds = Ok x -> (fuel <= fuel')%nat -> fill_loop grow ix fuel' lim f ps ds = Ok x.
  Proof.
    induction fuel as [|k IH]; intros [|k'] ps ds x E L; cbn [fill_loop] in *; try discriminate; try lia.
    destruct (_ && _); [exact E|]. destruct (posts_next ps f) as [[d ps1]|[]| |]; try discriminate; [|exact E].
    destruct (docid2doc ix d) as [[[p s] e]|e| |]; cbn [bind] in *; try discriminate.
    destruct (put_doc grow lim ds p s e) as [ds'|e'| |]; cbn [bind] in *; try discriminate. apply IH; [exact E|lia].
  Qed.
  (** Reading on into a slice that is not nil: what is in it stays. *)
  Lemma fill_loop_on f : forall fuel ps d0 d' ps' m back, fill_loop grow ix fuel false f ps d0 = Ok (d', ps', true) -> docs_wf d0 -> (m <= length back)%nat ->
    exists m' back' ps2 eof, fill_loop grow ix fuel true f ps (Some (m, back)) = Ok (Some (m', back'), ps2, eof) /\
      (m <= m')%nat /\ (m' <= length back')%nat /\ firstn m back' = firstn m back /\ (eof = true -> ps2 = ps').
  Proof.
    induction fuel as [|k IH]; intros ps d0 d' ps' m back E W L; cbn [fill_loop] in *; [discriminate|].
    cbn [andb docs_len docs_cap] in *. destruct (Nat.ltb_spec m (length back)) as [A|A]; cbn [negb].
    - destruct (posts_next ps f) as [[d ps1]|[]| |] eqn:Ep; try discriminate.
      + destruct (docid2doc ix d) as [[[p s] e]|e| |] eqn:Ed; cbn [bind] in *; try discriminate.
        destruct (put_doc_free grow d0 p s e W) as (d1 & E1 & W1 & _). rewrite E1 in E. cbn [bind] in E.
        rewrite put_doc_lim by exact A. cbn [bind].
        destruct (IH _ _ _ _ (S m) (upd m (MkDoc p s e (d_dat (nth m back zero_doc))) back) E W1) as (m' & back' & ps2 & eof & E2 & L2 & L3 & F & Q);
          [rewrite upd_length; lia|].
        exists m', back', ps2, eof. split; [exact E2|]. split; [lia|]. split; [exact L3|]. split; [|exact Q].
        apply (f_equal (firstn m)) in F. rewrite !firstn_firstn, Nat.min_l in F by lia. rewrite F. apply firstn_upd_self.
      + injection E as <- <-. exists m, back, ps, true. auto 10.
    - exists m, back, ps, false. repeat split; auto. discriminate.
  Qed.

  (** The same state: only the place of one shard's list differs. *)
  Lemma fill_blot_fail fuel q b src pos e q1 : nth_error (q_states q) pos = Some (Some src) ->
    fill_blot grow ix fuel q (MkEntry b None) src pos = Ok (e, q1) ->
    exists ks, docs_wf (be_docs e) /\ docs_keys (be_docs e) = ks /\
    forall j, (j < length ks)%nat -> exists bad e1 src1, let q2 := MkQ (upd pos (Some src1) (q_states q)) (q_i q) (q_n q) (q_nil q) in
      fill_blot_r grow ix fuel bad q (MkEntry b None) src pos = (Failed (e1, q2), []) /\
      be_blot e1 = be_blot e /\ docs_wf (be_docs e1) /\ docs_keys (be_docs e1) = firstn j ks ++ [([], 0, 0)] /\
      nth_error (q_states q2) pos = Some (Some src1) /\
      (forall b', exists e2, fill_blot grow ix fuel q2 (MkEntry b' None) src1 pos = Ok (e2, q1) /\ be_blot e2 = be_blot e /\ docs_wf (be_docs e2) /\
         docs_keys (be_docs e2) = skipn (S j) ks) /\
      exists e2 q3, fill_blot grow ix fuel q2 e1 src1 pos = Ok (e2, q3) /\ be_blot e2 = be_blot e /\ docs_wf (be_docs e2) /\
         firstn (S j) (docs_keys (be_docs e2)) = docs_keys (be_docs e1) /\ (S j <= docs_len (be_docs e2))%nat.
  Proof.
    intros Hp E. unfold fill_blot in E. destruct (nth_error (ix_shards ix) pos) as [s|] eqn:Es; [|discriminate]. cbv zeta in E.
    cbn [be_docs is_nil negb] in E.
    destruct (fill_loop grow ix fuel false (si_file s) (rs_posts src) None) as [[[ds ps] eof]|e'| |] eqn:El; cbn [bind] in E; try discriminate.
    destruct (fill_loop_acc (si_file s) fuel (rs_posts src) None ds ps eof Logic.I El) as (-> & W & ks & K & _ & Fail).
    cbn [docs_keys docs_list map app] in K, Fail.
    set (src' := MkReadState (rs_blot src) (rs_at src) (rs_total src) ps) in *.
    destruct (advance ix _ src' pos) as [qa|e'| |] eqn:Ea; cbn [bind] in E; try discriminate. injection E as <- <-.
    exists ks. cbn [be_docs be_blot]. split; [exact W|]. split; [exact K|]. intros j Lj.
    destruct (Fail j Lj) as (bad & dj & psj & fuel' & Ef & Wj & Kj & Nj & Lf & Aj).
    set (src1 := MkReadState (rs_blot src) (rs_at src) (rs_total src) psj).
    assert (Lp : (pos < length (q_states q))%nat) by (apply nth_error_Some; rewrite Hp; discriminate).
    exists bad, (MkEntry (fill_blot_id (q_n q) (q_i q) (u32 (N.of_nat (rs_blot src)))) dj), src1. cbv zeta. cbn [be_blot be_docs q_states q_i q_n q_nil].
    split. { unfold fill_blot_r. rewrite Es. cbv zeta. cbn [be_docs is_nil negb]. rewrite Ef. reflexivity. }
    split; [reflexivity|]. split; [exact Wj|]. split; [exact Kj|].
    split. { apply nth_error_upd_eq, Lp. }
    split.
    - intros b'. destruct (Aj None Logic.I) as (d2 & E2 & W2 & K2). apply (fill_loop_fuel _ _ _ fuel) in E2; [|exact Lf].
      exists (MkEntry (fill_blot_id (q_n q) (q_i q) (u32 (N.of_nat (rs_blot src)))) d2). unfold fill_blot. rewrite Es. cbv zeta.
      cbn [be_docs is_nil negb rs_posts src1 q_states q_i q_n q_nil rs_blot rs_at rs_total]. rewrite E2. cbn [bind].
      rewrite upd_upd_self. fold src'. rewrite Ea. cbn [bind]. auto.
    - destruct (Aj None Logic.I) as (d2 & E2 & _). apply (fill_loop_fuel _ _ _ fuel) in E2; [|exact Lf].
      destruct dj as [[m back]|]; [|discriminate]. cbn [docs_wf] in Wj.
      destruct (fill_loop_on _ _ _ _ _ _ m back E2 Logic.I Wj) as (m' & back' & ps2 & eof & E3 & Lm & Lb & F & Q).
      assert (Em : m = S j).
      { pose proof (keys_len (Some (m, back)) Wj) as Hl. rewrite Kj, app_length, firstn_length in Hl. cbn [docs_len length] in Hl. lia. }
      subst m. exists (MkEntry (fill_blot_id (q_n q) (q_i q) (u32 (N.of_nat (rs_blot src)))) (Some (m', back'))).
      unfold fill_blot. rewrite Es. cbv zeta.
      cbn [be_docs is_nil negb rs_posts src1 q_states q_i q_n q_nil rs_blot rs_at rs_total]. rewrite E3. cbn [bind be_blot].
      assert (Fk : firstn (S j) (docs_keys (Some (m', back'))) = docs_keys (Some (S j, back))).
      { unfold docs_keys. cbn [docs_list]. rewrite firstn_map, firstn_firstn, Nat.min_l by lia. apply f_equal, F. }
      destruct eof.
      + rewrite (Q eq_refl), upd_upd_self. fold src'. rewrite Ea. cbn [bind]. eexists. split; [reflexivity|]. split; [reflexivity|]. split; [exact Lb|]. split; [exact Fk|exact Lm].
      + cbn [bind]. eexists. split; [reflexivity|]. split; [reflexivity|]. split; [exact Lb|]. split; [exact Fk|exact Lm].
  Qed.

  Theorem next_fail fuel : forall k q b r, query_next grow ix fuel k q [MkEntry b None] = Ok (r, false) ->
    exists e, r_dst r = [e] /\ r_n r = 1%nat /\ (2 <= length (docs_keys (be_docs e)))%nat /\
    forall j, (j < length (docs_keys (be_docs e)))%nat -> exists bad r1 e1,
      query_next_r grow ix fuel k bad q [MkEntry b None] = (Failed r1, []) /\
      r_n r1 = 0%nat /\ r_dst r1 = [e1] /\ be_blot e1 = be_blot e /\ docs_keys (be_docs e1) = firstn j (docs_keys (be_docs e)) ++ [([], 0, 0)] /\
      ((S (S (S j)) <= length (docs_keys (be_docs e)))%nat -> forall b', exists e2,
         query_next grow ix fuel 2 (r_q r1) [MkEntry b' None] = Ok (MkRun (r_q r) [e2] 1, false) /\ be_blot e2 = be_blot e /\
         docs_keys (be_docs e2) = skipn (S j) (docs_keys (be_docs e))) /\
      ((1 <= j)%nat -> exists e2 q2, query_next grow ix fuel 2 (r_q r1) [e1] = Ok (MkRun q2 [e2] 1, false) /\ be_blot e2 = be_blot e /\
         nth_error (docs_keys (be_docs e2)) j = Some ([], 0, 0)).
  Proof.
    unfold query_next, query_next_r. induction k as [|k IH]; intros q b r E; cbn [next_loop next_loop_r] in *; [discriminate|].
    destruct (next_iter_spends fuel (MkRun q [MkEntry b None] 0)) as (c & Hc). cbv beta in Hc.
    destruct (next_iter grow ix fuel (MkRun q [MkEntry b None] 0)) as [[r0 v]|e| |] eqn:En; cbn [bind] in E; try discriminate.
    assert (Cont : forall q' b', r0 = MkRun q' [MkEntry b' None] 0 -> v = Again ->
      exists e, r_dst r = [e] /\ r_n r = 1%nat /\ (2 <= length (docs_keys (be_docs e)))%nat /\
    forall j, (j < length (docs_keys (be_docs e)))%nat -> exists bad r1 e1,
      next_loop_r grow ix fuel (S k) bad (MkRun q [MkEntry b None] 0) = (Failed r1, []) /\
      r_n r1 = 0%nat /\ r_dst r1 = [e1] /\ be_blot e1 = be_blot e /\ docs_keys (be_docs e1) = firstn j (docs_keys (be_docs e)) ++ [([], 0, 0)] /\
      ((S (S (S j)) <= length (docs_keys (be_docs e)))%nat -> forall b', exists e2,
         next_loop grow ix fuel 2 (MkRun (r_q r1) [MkEntry b' None] 0) = Ok (MkRun (r_q r) [e2] 1, false) /\ be_blot e2 = be_blot e /\
         docs_keys (be_docs e2) = skipn (S j) (docs_keys (be_docs e))) /\
      ((1 <= j)%nat -> exists e2 q2, next_loop grow ix fuel 2 (MkRun (r_q r1) [e1] 0) = Ok (MkRun q2 [e2] 1, false) /\ be_blot e2 = be_blot e /\
         nth_error (docs_keys (be_docs e2)) j = Some ([], 0, 0))).
    { intros q' b' -> ->. destruct (IH q' b' r E) as (e & A & B & C & D). exists e. split; [exact A|]. split; [exact B|]. split; [exact C|].
      intros j Lj. destruct (D j Lj) as (bad & r1 & e1 & F & G). exists (c ++ bad), r1, e1. split; [|exact G].
      cbn [next_loop_r]. rewrite Hc. exact F. }
    clear IH Hc c. pose proof En as En0. unfold next_iter in En. cbn [r_dst r_n nth_error r_q] in En.
    destruct (nth_error (q_states q) (N.to_nat (q_i q))) as [[rs|]|] eqn:Eq; [|cbv zeta in En; destruct (_ =? _)|discriminate].
    - cbv zeta in En. cbn [be_docs is_nil negb] in En.
      destruct (fill_blot grow ix fuel q (MkEntry b None) rs (N.to_nat (q_i q))) as [[e q1]|e| |] eqn:Ef; cbn [bind] in En; try discriminate.
      destruct (fill_blot_fail fuel q b rs _ e q1 Eq Ef) as (ks & We & Ke & Fail). pose proof (keys_len _ We) as Le. rewrite Ke in Le.
      destruct (Nat.leb_spec (docs_len (be_docs e)) 1) as [Sm|Lg].
      + destruct (advance ix q1 rs (N.to_nat (q_i q1))) as [q2|e'| |]; cbn [bind] in En; try discriminate.
        injection En as <- <-. cbn [upd] in *. eapply Cont; reflexivity.
      + injection En as <- <-. cbn [upd] in *. clear Cont. destruct k as [|k]; [discriminate|]. cbn [next_loop] in E.
        unfold next_iter in E at 1. cbn [r_dst r_n nth_error bind] in E. injection E as <-. cbn [r_dst r_n r_q].
        exists e. split; [reflexivity|]. split; [reflexivity|]. rewrite Ke. split; [lia|]. intros j Lj.
        destruct (Fail j Lj) as (bad & e1 & src1 & H). cbv zeta in H. destruct H as (Hr & Hb & Hw & Hk & Hn & Hf & e2 & q3 & H1 & H2 & H3 & H4 & H5).
        set (q2 := MkQ _ _ _ _) in *. exists bad, (MkRun q2 [e1] 0), e1. cbn [r_q r_dst r_n].
        assert (Ei : q_i q2 = q_i q) by reflexivity.
        split. { unfold next_iter_r. cbn [r_dst r_n nth_error r_q]. rewrite Eq, Hr. reflexivity. }
        split; [reflexivity|]. split; [reflexivity|]. split; [exact Hb|]. split; [exact Hk|]. split.
        * intros L3 b'. destruct (Hf b') as (e3 & F1 & F2 & F3 & F4). exists e3. split; [|split; [exact F2|exact F4]].
          cbn [next_loop]. unfold next_iter at 1. cbn [r_dst r_n nth_error r_q]. rewrite Ei, Hn, F1. cbn [bind].
          pose proof (keys_len _ F3) as L4. rewrite F4, skipn_length in L4.
          destruct (Nat.leb_spec (docs_len (be_docs e3)) 1); [lia|]. cbn [bind upd]. reflexivity.
        * intros L1. exists e2, q3. split; [|split; [exact H2|]].
          { cbn [next_loop]. unfold next_iter at 1. cbn [r_dst r_n nth_error r_q]. rewrite Ei, Hn, H1. cbn [bind].
            destruct (Nat.leb_spec (docs_len (be_docs e2)) 1); [lia|]. cbn [bind upd]. reflexivity. }
          assert (X : nth_error (firstn (S j) (docs_keys (be_docs e2))) j = Some ([], 0, 0)).
          { rewrite H4, Hk, nth_error_app2; rewrite firstn_length; [|lia]. rewrite Nat.min_l by lia. rewrite Nat.sub_diag. reflexivity. }
          rewrite <- X. clear. generalize (docs_keys (be_docs e2)). induction j as [|j IH]; intros [|x l]; try reflexivity. cbn [nth_error firstn]. apply IH.
    - injection En as <- <-. discriminate.
    - injection En as <- <-. eapply Cont; reflexivity.
  Qed.

  (** Get reads as Next does. *)
  Lemma get_fill f : forall fuel ps ds ds', get_loop grow ix fuel false f ps ds = Ok ds' -> exists ps' eof, fill_loop grow ix fuel false f ps ds = Ok (ds', ps', eof).
  Proof.
    induction fuel as [|k IH]; intros ps ds ds' E; cbn [get_loop fill_loop andb] in *; [discriminate|].
    destruct (posts_next ps f) as [[d ps1]|[]| |]; try discriminate; [|injection E as <-; eauto].
    destruct (docid2doc ix d) as [[[p s] e]|e| |]; cbn [bind] in *; try discriminate.
    destruct (put_doc grow false ds p s e) as [ds1|e'| |]; cbn [bind] in *; try discriminate. apply IH, E.
  Qed.
  Lemma get_fill_r f : forall fuel bad ps ds dj psj bad', fill_loop_r grow ix fuel bad false f ps ds = (Failed (dj, psj), bad') ->
    get_loop_r grow ix fuel bad false f ps ds = (Failed dj, bad').
  Proof.
    induction fuel as [|k IH]; intros bad ps ds dj psj bad' E; cbn [get_loop_r fill_loop_r andb] in *; [discriminate|].
    destruct (posts_next_r bad ps f) as [[[[d ps1]|[]| |]|[]] bad1]; try discriminate; [|injection E as <- <- <-; reflexivity].
    destruct (docid2doc_r bad1 ix d) as [[x|[]] bad2]; [|injection E as <- <- <-; reflexivity].
    destruct x as [[[p s] e]|e| |]; cbn [bind] in *; try discriminate.
    destruct (put_doc grow false ds p s e) as [ds1|e'| |]; cbn [bind] in *; try discriminate. eapply IH, E.
  Qed.
  Lemma fill_get f : forall fuel ps m back m' back' ps' eof, (m <= length back)%nat ->
    fill_loop grow ix fuel true f ps (Some (m, back)) = Ok (Some (m', back'), ps', eof) -> get_loop grow ix fuel true f ps (Some (m, back)) = Ok (Some (m', back')).
  Proof.
    induction fuel as [|k IH]; intros ps m back m' back' ps' eof L E; cbn [get_loop fill_loop andb docs_len docs_cap] in *; [discriminate|].
    destruct (Nat.ltb_spec m (length back)) as [A|A]; cbn [negb] in E.
    - destruct (Nat.eqb_spec m (length back)); [lia|].
      destruct (posts_next ps f) as [[d ps1]|[]| |]; try discriminate; [|injection E as <- <- _ _; reflexivity].
      destruct (docid2doc ix d) as [[[p s] e]|e| |]; cbn [bind] in *; try discriminate.
      rewrite put_doc_lim in * by exact A. cbn [bind] in *. eapply IH; [|exact E]. rewrite upd_length. lia.
    - destruct (Nat.eqb_spec m (length back)); [|lia]. injection E as <- <- _ _; reflexivity.
  Qed.
  Theorem get_fail fuel blot ds : query_get grow ix fuel blot None = Ok ds -> forall j, (j < length (docs_keys ds))%nat ->
    exists bad d1 d2, query_get_r grow ix fuel bad blot None = (Failed d1, []) /\ docs_keys d1 = firstn j (docs_keys ds) ++ [([], 0, 0)] /\
      query_get grow ix fuel blot d1 = Ok d2 /\ firstn (S j) (docs_keys d2) = docs_keys d1.
  Proof.
    unfold query_get, query_get_r. destruct (get_address _ _) as [[s b]|e| |]; cbn [bind]; try discriminate.
    destruct (nth_error _ _) as [si|]; [|discriminate]. cbv zeta. cbn [is_nil negb]. intros E j Lj.
    destruct (get_fill _ _ _ _ _ E) as (ps' & eof & Ef). destruct (fill_loop_acc _ _ _ None _ _ _ Logic.I Ef) as (-> & W & ks & K & _ & Fail).
    cbn [docs_keys docs_list map app] in K, Fail. rewrite K in Lj. rewrite K. destruct (Fail j Lj) as (bad & dj & psj & fuel' & Er & Wj & Kj & Nj & _).
    destruct dj as [[m back]|]; [|discriminate]. cbn [docs_wf] in Wj.
    destruct (fill_loop_on _ _ _ None _ _ m back Ef Logic.I Wj) as (m' & back' & ps2 & eof & E3 & Lm & Lb & F & _).
    exists bad, (Some (m, back)), (Some (m', back')). split; [eapply get_fill_r, Er|]. split; [exact Kj|]. split; [eapply fill_get; [exact Wj|exact E3]|].
    assert (Em : m = S j).
    { pose proof (keys_len (Some (m, back)) Wj) as Hl. rewrite Kj, app_length, firstn_length in Hl. cbn [docs_len length] in Hl. lia. }
    rewrite <- Em. unfold docs_keys. cbn [docs_list]. rewrite firstn_map, firstn_firstn, Nat.min_l by lia. apply f_equal, F.
  Qed.
End R.
