(** Goroutines that share a Query, however they interleave: what is given is right. *)
From Coq Require Import Lia Permutation.
From Verif Require Import Model.Base Model.Address Model.Varint Model.Post Model.Poster Model.Shard Model.Dmd Model.Fnames Model.Index Model.Query Model.NextRace.
From Verif Require Import Spec.Reading Spec.Querying Spec.SomeOf Proof.Tactics Proof.QueryP Proof.QueryP2 Proof.PathRaceP Proof.AgreeP Proof.NextRaceP Proof.NextRaceP2.
Local Open Scope N_scope.

Lemma some_more {A} (l a b : list A) : some_of l a -> some_of l (a ++ b).
Proof. induction 1; cbn [app]; constructor; assumption. Qed.
Lemma some_snoc {A} (l a : list A) d : some_of l a -> some_of (l ++ [d]) (a ++ [d]).
Proof.
  induction 1 as [m|x l m H IH|x l m H IH]; cbn [app]; try (constructor; exact IH).
  induction m as [|y m IH]; cbn [app]; [apply some_taken, some_none|apply some_left, IH].
Qed.
Lemma some_in {A} (l a : list A) x : some_of l a -> In x l -> In x a.
Proof. induction 1 as [m|y l m H IH|y l m H IH]; cbn [In]; [intros []| |]; tauto. Qed.
Lemma some_length {A} (l a : list A) : some_of l a -> (length l <= length a)%nat.
Proof. induction 1; cbn [length]; lia. Qed.
Section Sound.
  Variable grow : nat -> nat.
  Variables (ix : index) (n : nat) (content : nat -> nat -> list N) (place : N -> bytes * N * N).
  Hypothesis I : index_ok ix n content place.
  Notation next_step := (next_step grow ix).
  Notation next_race := (next_race grow ix).
  Notation move_on := (move_on ix).

  (** A read state of shard [s] from which [pre] was taken: the other documents of its blot are still to come. *)
  Definition st_ok (s : nat) (pre : list N) (r : read_state) : Prop :=
    (rs_blot r < num_slots)%nat /\ exists si suf, nth_error (ix_shards ix) s = Some si /\ content s (rs_blot r) = pre ++ suf /\ reads (si_file si) (rs_posts r) suf.
  Definition hp_ok (own : list (nat * list N)) (h : shared) : Prop :=
    length own = length (h_states h) /\
    (forall p s pre, nth_error own p = Some (s, pre) -> st_ok s pre (nth p (h_states h) no_state)) /\
    (forall i p, nth_error (h_ptrs h) i = Some (Some p) -> exists pre, nth_error own p = Some (i, pre)) /\
    length (h_ptrs h) = n /\ (N.to_nat (h_i h) < n)%nat /\ h_n h = N.of_nat n.
  Definition name (s b : nat) : N := fill_blot_id (N.of_nat n) (N.of_nat s) (u32 (N.of_nat b)).
  (** [e] has some documents of those in [pre], and [tl] are further ones. *)
  Definition right (e : blot_entry) (s b : nat) (pre tl : list N) : Prop :=
    (s < n)%nat /\ (b < num_slots)%nat /\ be_blot e = name s b /\ exists l, docs_keys (be_docs e) = map place l /\ some_of (l ++ tl) pre.
  Definition placed (own : list (nat * list N)) (h : shared) (lim : bool) (e : blot_entry) (p pos : nat) (tl : list N) : Prop :=
    (exists pre, nth_error own p = Some (pos, pre) /\ right e pos (rs_blot (nth p (h_states h) no_state)) pre tl) /\ (lim = true -> is_nil (be_docs e) = false).
  Definition pc_ok (own : list (nat * list N)) (h : shared) (lim : bool) (e : blot_entry) (c : npc) : Prop :=
    match c with
    | NTop | NEnd _ => docs_list (be_docs e) = []
    | NRead p pos | NAdv p pos => placed own h lim e p pos []
    | NDoc p pos did => placed own h lim e p pos [did] /\ (lim = true -> (docs_len (be_docs e) < docs_cap (be_docs e))%nat)
    | NOut p => exists pos, placed own h lim e p pos []
    | NFail _ => False
    end.
  Definition g_ok (own : list (nat * list N)) (h : shared) (g : iterating) : Prop :=
    (forall j e, nth_error (g_dst g) j = Some e -> docs_wf (be_docs e)) /\
    (forall j e, (j < g_n g)%nat -> nth_error (g_dst g) j = Some e -> (2 <= docs_len (be_docs e))%nat /\ exists s b, right e s b (content s b) []) /\
    (forall j e, (g_n g < j)%nat -> nth_error (g_dst g) j = Some e -> docs_list (be_docs e) = []) /\
    (forall r, g_pc g <> NFail r) /\
    (forall e, nth_error (g_dst g) (g_n g) = Some e -> pc_ok own h (g_lim g) e (g_pc g)).
  Definition grows (own : list (nat * list N)) (h : shared) (own' : list (nat * list N)) (h' : shared) : Prop :=
    forall p s pre, nth_error own p = Some (s, pre) -> (exists more, nth_error own' p = Some (s, pre ++ more)) /\ rs_blot (nth p (h_states h') no_state) = rs_blot (nth p (h_states h) no_state).

  Lemma right_more e s b pre more tl : right e s b pre tl -> right e s b (pre ++ more) tl.
  Proof. intros (A & B & C & l & D & E). split; [exact A|]. split; [exact B|]. split; [exact C|]. exists l. split; [exact D|]. apply some_more, E. Qed.
  Lemma placed_grows own h own' h' lim e p pos tl : grows own h own' h' -> placed own h lim e p pos tl -> placed own' h' lim e p pos tl.
  Proof.
    intros G [(pre & E1 & E2) E3]. destruct (G _ _ _ E1) as [[more F1] F2]. split; [|exact E3]. exists (pre ++ more). split; [exact F1|]. rewrite F2. apply right_more, E2.
  Qed.
  Lemma pc_grows own h own' h' lim e c : grows own h own' h' -> pc_ok own h lim e c -> pc_ok own' h' lim e c.
  Proof.
    intros G. destruct c as [|p pos|p pos did|p pos|p|eof|r]; cbn [pc_ok]; try exact (fun x => x); try apply (placed_grows _ _ _ _ _ _ _ _ _ G).
    - intros [A B]. split; [exact (placed_grows _ _ _ _ _ _ _ _ _ G A)|exact B].
    - intros [pos A]. exists pos. exact (placed_grows _ _ _ _ _ _ _ _ _ G A).
  Qed.
  Lemma g_grows own h own' h' g : grows own h own' h' -> g_ok own h g -> g_ok own' h' g.
  Proof.
    intros G (A & B & C & D & E). split; [exact A|]. split; [exact B|]. split; [exact C|]. split; [exact D|]. intros e Ee. exact (pc_grows _ _ _ _ _ _ _ G (E e Ee)).
  Qed.

  Lemma perm_in s si i : nth_error (ix_shards ix) s = Some si -> (nth i (si_perm si) 0 < num_slots)%nat.
  Proof.
    intros E. destruct (io_perm _ _ _ _ I s si E) as [Pm _]. destruct (nth_in_or_default i (si_perm si) 0%nat) as [H|H].
    - eapply Permutation_in in H; [|exact Pm]. apply in_seq in H. clear -H. generalize dependent num_slots. intros; lia.
    - rewrite H. unfold num_slots. clear. lia.
  Qed.
  Lemma fresh_ok s si i : nth_error (ix_shards ix) s = Some si -> st_ok s [] (read_state_at si i).
  Proof.
    intros E. pose proof (perm_in s si i E) as L. split; [exact L|]. destruct (io_reads _ _ _ _ I s si E _ L) as [R _].
    exists si, (content s (nth i (si_perm si) 0%nat)). split; [exact E|]. split; [reflexivity|exact R].
  Qed.
  Lemma grows_same own h h' : h_states h' = h_states h -> grows own h own h'.
  Proof. intros E p s pre H. rewrite E. split; [|reflexivity]. exists []. rewrite app_nil_r. exact H. Qed.

  Lemma move_ok own h src k : hp_ok own h -> (k < n)%nat -> exists h' own', move_on h src k = Ok h' /\ hp_ok own' h' /\ grows own h own' h'.
  Proof.
    intros (A & B & C & D & E & F) Lk. unfold NextRace.move_on.
    assert (Fin : forall h1 own', hp_ok own' h1 -> grows own h own' h1 ->
      exists h' own', Ok (MkShared (h_states h1) (h_ptrs h1) (set_max_loop (q_states (qstate_of h1)) 0 0 0) (h_n h1) (h_nil h1)) = Ok h' /\ hp_ok own' h' /\ grows own h own' h').
    { intros h1 own' (A1 & B1 & C1 & D1 & E1 & F1) G. eexists. exists own'. split; [reflexivity|]. split; [|exact G].
      split; [exact A1|]. split; [exact B1|]. split; [exact C1|]. split; [exact D1|]. split; [|exact F1]. cbn [h_i].
      pose proof (set_max_loop_in (q_states (qstate_of h1)) 0 0 0) as R. assert (Lx : length (q_states (qstate_of h1)) = n) by (cbn [qstate_of q_states]; rewrite map_length; exact D1). unfold nlen in R. rewrite Lx in R. pose proof (io_pos _ _ _ _ I). clear -R H. lia. }
    assert (Nn : let h1 := MkShared (h_states h) (upd k None (h_ptrs h)) (h_i h) (h_n h) (h_nil h) in hp_ok own h1 /\ grows own h own h1).
    { cbn zeta. split; [|apply grows_same; reflexivity]. split; [exact A|]. split; [exact B|]. cbn [h_ptrs h_i h_n]. rewrite upd_length. split; [|auto].
      intros i p Ei. rewrite nth_error_upd in Ei. destruct (k =? i)%nat; [destruct (nth_error (h_ptrs h) i); discriminate|]. exact (C i p Ei). }
    destruct Nn as [N1 N2].
    destruct (N.of_nat (rs_at src) =? 65535); [exact (Fin _ _ N1 N2)|]. destruct (rs_total src <=? 1); [exact (Fin _ _ N1 N2)|].
    destruct (nth_error (ix_shards ix) k) as [si|] eqn:Es; [|apply nth_error_None in Es; rewrite (io_len _ _ _ _ I) in Es; lia].
    cbn [bind]. apply (Fin (MkShared (h_states h ++ [read_state_at si (rs_at src + 1)]) (upd k (Some (length (h_states h))) (h_ptrs h)) (h_i h) (h_n h) (h_nil h)) (own ++ [(k, [])])).
    - split; [cbn [h_states]; rewrite !app_length, A; reflexivity|]. cbn [h_states h_ptrs h_i h_n]. split; [|split; [|rewrite upd_length; auto]].
      + intros p s pre Ep. destruct (Nat.lt_ge_cases p (length own)) as [L|L].
        * rewrite nth_error_app1 in Ep by exact L. rewrite app_nth1 by (rewrite <- A; exact L). exact (B p s pre Ep).
        * rewrite nth_error_app2 in Ep by exact L. rewrite app_nth2 by (rewrite <- A; exact L). rewrite <- A. destruct (p - length own)%nat as [|x]; cbn [nth_error] in Ep; [|destruct x; discriminate].
          injection Ep as <- <-. cbn [nth]. apply fresh_ok, Es.
      + intros i p Ei. rewrite nth_error_upd in Ei. destruct (Nat.eqb_spec k i) as [<-|Ne].
        * destruct (nth_error (h_ptrs h) k); [|discriminate]. assert (p = length own) as -> by congruence. exists []. rewrite nth_error_app2, Nat.sub_diag by apply le_n. reflexivity.
        * destruct (C i p Ei) as [pre X]. exists pre. rewrite nth_error_app1; [exact X|]. apply nth_error_Some. congruence.
    - intros p s pre Ep. assert (Lp : (p < length own)%nat) by (apply nth_error_Some; congruence). cbn [h_states]. rewrite app_nth1 by (rewrite <- A; exact Lp). split; [|reflexivity].
      exists []. rewrite app_nil_r, nth_error_app1 by exact Lp. exact Ep.
  Qed.
  Lemma grows_refl own h : grows own h own h.
  Proof. apply grows_same. reflexivity. Qed.
  Lemma put_ok ds lim did l s b : docs_wf ds -> (lim = true -> is_nil ds = false) -> (lim = true -> (docs_len ds < docs_cap ds)%nat) -> (s < n)%nat -> (b < num_slots)%nat -> In did (content s b) ->
    docs_keys ds = map place l ->
    exists ds', (do! (path, start, end_) <- docid2doc ix did; put_doc grow lim ds path start end_) = Ok ds' /\ docs_wf ds' /\ docs_keys ds' = map place (l ++ [did]) /\ (lim = true -> is_nil ds' = false).
  Proof.
    intros W Nl Rm Ls Lb Hd Ic. rewrite (io_place _ _ _ _ I s b did Ls Lb Hd). cbn [bind]. destruct (place did) as [[path st] en] eqn:Ep.
    assert (X : forall ds' dat, docs_list ds' = docs_list ds ++ [MkDoc path st en dat] -> docs_keys ds' = map place (l ++ [did])).
    { intros ds' dat E. unfold docs_keys in *. rewrite E, !map_app, Ic. cbn [map]. rewrite Ep. reflexivity. }
    destruct lim.
    - specialize (Nl eq_refl). specialize (Rm eq_refl). destruct ds as [[m back]|]; [|discriminate]. cbn [docs_len docs_cap] in Rm. rewrite put_doc_lim by exact Rm.
      eexists. split; [reflexivity|]. split; [cbn [docs_wf]; rewrite upd_length; lia|]. split; [|reflexivity]. eapply X. cbn [docs_list]. apply firstn_upd_S, Rm.
    - destruct (put_doc_free grow ds path st en W) as (ds' & E & W' & L & _). exists ds'. split; [exact E|]. split; [exact W'|]. split; [exact (X ds' [] L)|discriminate].
  Qed.

  Lemma step_ok own h g : hp_ok own h -> g_ok own h g -> let '(h', g') := next_step h g in exists own', hp_ok own' h' /\ grows own h own' h' /\ g_ok own' h' g'.
  Proof.
    intros Hp Hg. pose proof Hp as (A & B & C & D & E & F). pose proof Hg as (G1 & G2 & G3 & G4 & G5). unfold NextRace.next_step.
    assert (Keep : exists own', hp_ok own' h /\ grows own h own' h /\ g_ok own' h g) by (exists own; split; [exact Hp|]; split; [apply grows_refl|exact Hg]).
    destruct (nth_error (g_dst g) (g_n g)) as [e|] eqn:Ee.
    2: { destruct (g_pc g) eqn:Epc; try exact Keep. exists own. split; [exact Hp|]. split; [apply grows_refl|].
      split; [exact G1|]. split; [exact G2|]. split; [exact G3|]. split; [discriminate|]. cbn [at_pc g_dst g_n]. rewrite Ee. discriminate. }
    specialize (G5 e eq_refl). assert (Lg : (g_n g < length (g_dst g))%nat) by (apply nth_error_Some; congruence).
    (* the same entries, another place *)
    assert (Go : forall own' h' c, hp_ok own' h' -> grows own h own' h' -> (forall r, c <> NFail r) -> pc_ok own' h' (g_lim g) e c ->
      exists own', hp_ok own' h' /\ grows own h own' h' /\ g_ok own' h' (at_pc c g)).
    { intros own' h' c Hp' Gr Nf At. exists own'. split; [exact Hp'|]. split; [exact Gr|]. split; [exact G1|]. split; [exact G2|]. split; [exact G3|]. split; [exact Nf|].
      cbn [at_pc g_dst g_n g_pc g_lim]. intros e' Ee'. assert (e' = e) as -> by congruence. exact At. }
    (* another entry in the place *)
    assert (En : forall own' h' c lim e', hp_ok own' h' -> grows own h own' h' -> (forall r, c <> NFail r) -> docs_wf (be_docs e') -> pc_ok own' h' lim e' c ->
      exists own', hp_ok own' h' /\ grows own h own' h' /\ g_ok own' h' (MkIter c lim (upd (g_n g) e' (g_dst g)) (g_n g))).
    { intros own' h' c lim e' Hp' Gr Nf W At. exists own'. split; [exact Hp'|]. split; [exact Gr|]. unfold g_ok. cbn [g_dst g_n g_pc g_lim].
      split. { intros j x Ex. rewrite nth_error_upd in Ex. destruct (g_n g =? j)%nat; [destruct (nth_error (g_dst g) j); [|discriminate]; assert (x = e') as -> by congruence; exact W|exact (G1 j x Ex)]. }
      split. { intros j x Lj Ex. rewrite nth_error_upd in Ex. destruct (Nat.eqb_spec (g_n g) j); [lia|]. exact (G2 j x Lj Ex). }
      split. { intros j x Lj Ex. rewrite nth_error_upd in Ex. destruct (Nat.eqb_spec (g_n g) j); [lia|]. exact (G3 j x Lj Ex). }
      split; [exact Nf|]. intros x Ex. rewrite nth_error_upd_eq in Ex by exact Lg. assert (x = e') as -> by congruence. exact At. }
    destruct (g_pc g) as [|p pos|p pos did|p pos|p|eof|r] eqn:Epc; try exact Keep; cbn [pc_ok] in G5.
    - (* top *)
      destruct (nth_error (h_ptrs h) (N.to_nat (h_i h))) as [[p|]|] eqn:Ep; [| |apply nth_error_None in Ep; lia].
      + destruct (nth_error (ix_shards ix) (N.to_nat (h_i h))) as [si|] eqn:Es; [|apply nth_error_None in Es; rewrite (io_len _ _ _ _ I) in Es; lia].
        apply (En own); [exact Hp|apply grows_refl|discriminate|cbn [be_docs]; exact (G1 _ _ Ee)|]. destruct (C _ _ Ep) as [pre Op]. split.
        * exists pre. split; [exact Op|]. destruct (B _ _ _ Op) as [Lb _]. split; [exact E|]. split; [exact Lb|]. cbn [be_blot be_docs]. split; [unfold name; rewrite F, N2Nat.id; reflexivity|].
          exists []. unfold docs_keys. rewrite G5. split; [reflexivity|constructor].
        * intros H. apply Bool.negb_true_iff in H. exact H.
      + assert (Hp1 : forall i nc, (N.to_nat i < n)%nat -> hp_ok own (MkShared (h_states h) (h_ptrs h) i (h_n h) nc)) by (intros i nc L; split; [exact A|]; split; [exact B|]; split; [exact C|]; split; [exact D|]; split; [exact L|exact F]).
        assert (Gr1 : forall i nc, grows own h own (MkShared (h_states h) (h_ptrs h) i (h_n h) nc)) by (intros; apply grows_same; reflexivity).
        cbn zeta. destruct (u32 (h_nil h + 1) =? h_n h).
        * apply (Go own); [apply Hp1, E|apply Gr1|discriminate|exact G5].
        * exists own. split; [|split; [apply Gr1|apply (g_grows own h own _ g (Gr1 _ _) Hg)]]. apply Hp1. rewrite F. pose proof (io_pos _ _ _ _ I). pose proof (io_max _ _ _ _ I).
          destruct (N.eqb_spec (u32 (h_i h + 1)) (N.of_nat n)) as [|Ne]; [lia|]. unfold u32 in *. rewrite N.mod_small in * by lia. lia.
    - (* read *)
      destruct (g_lim g && _) eqn:El; [apply (Go own); [exact Hp|apply grows_refl|discriminate|exists pos; exact G5]|]. cbn zeta.
      pose proof G5 as [(pre & O1 & R1) L1]. destruct (B _ _ _ O1) as (Lb & si & suf & Es & Ec & Rd). rewrite Es. destruct suf as [|d suf]; cbn [reads] in Rd.
      + rewrite Rd. apply (Go own); [exact Hp|apply grows_refl|discriminate|]. exact G5.
      + destruct Rd as (ps & Rd & Rd'). rewrite Rd. set (src := nth p (h_states h) no_state) in *.
        assert (Lp : (p < length (h_states h))%nat) by (rewrite <- A; apply nth_error_Some; congruence).
        set (r' := MkReadState (rs_blot src) (rs_at src) (rs_total src) ps).
        assert (Nt : forall q, nth q (upd p r' (h_states h)) no_state = if (p =? q)%nat then r' else nth q (h_states h) no_state).
        { intros q. destruct (Nat.eqb_spec p q) as [<-|Ne].
          - apply nth_error_nth. apply nth_error_upd_eq, Lp.
          - destruct (nth_error (h_states h) q) as [z|] eqn:Ez.
            + rewrite (nth_error_nth _ _ _ Ez). apply nth_error_nth. rewrite nth_error_upd. destruct (Nat.eqb_spec p q); [congruence|exact Ez].
            + apply nth_error_None in Ez. rewrite !nth_overflow; [reflexivity|exact Ez|rewrite upd_length; exact Ez]. }
        assert (Bl : forall q, rs_blot (nth q (upd p r' (h_states h)) no_state) = rs_blot (nth q (h_states h) no_state)).
        { intros q. rewrite Nt. destruct (Nat.eqb_spec p q) as [<-|]; reflexivity. }
        assert (Op : nth_error (upd p (pos, pre ++ [d]) own) p = Some (pos, pre ++ [d])) by (apply nth_error_upd_eq; rewrite A; exact Lp).
        apply (Go (upd p (pos, pre ++ [d]) own)).
        * split; [cbn [h_states]; rewrite !upd_length; exact A|]. cbn [h_states h_ptrs h_i h_n]. split; [|split; [|auto]].
          { intros q s pre' Eq. rewrite Nt. destruct (Nat.eqb_spec p q) as [<-|Ne].
            - rewrite Op in Eq. injection Eq as <- <-. split; [exact Lb|]. exists si, suf. split; [exact Es|]. split; [|exact Rd']. cbn [r' rs_blot]. rewrite <- app_assoc. exact Ec.
            - rewrite nth_error_upd in Eq. destruct (Nat.eqb_spec p q); [congruence|]. exact (B q s pre' Eq). }
          { intros i q Eq. destruct (C i q Eq) as [pre' X]. rewrite nth_error_upd. destruct (Nat.eqb_spec p q) as [<-|Ne]; [|exists pre'; exact X].
            rewrite O1 in X. injection X as <- <-. rewrite O1. exists (pre ++ [d]). reflexivity. }
        * intros q s pre' Eq. cbn [h_states]. split; [|apply Bl]. rewrite nth_error_upd. destruct (Nat.eqb_spec p q) as [<-|Ne]; [|exists []; rewrite app_nil_r; exact Eq].
          rewrite O1 in Eq. injection Eq as <- <-. rewrite O1. exists [d]. reflexivity.
        * discriminate.
        * cbn [pc_ok]. split; [split; [|exact L1]|].
          { exists (pre ++ [d]). split; [exact Op|]. cbn [h_states]. rewrite Bl. fold src. destruct R1 as (R1 & R2 & R3 & l & R4 & R5). split; [exact R1|]. split; [exact R2|]. split; [exact R3|].
            exists l. split; [exact R4|]. rewrite app_nil_r in R5. apply some_snoc, R5. }
          intros Lm. rewrite Lm in El. cbn [andb] in El. apply Bool.negb_false_iff in El. apply Nat.ltb_lt. exact El.
    - (* doc *)
      destruct G5 as [[(pre & O1 & Ls & Lb & Bl & l & K & Sb) L1] Rm].
      assert (Hd : In did (content pos (rs_blot (nth p (h_states h) no_state)))).
      { destruct (B _ _ _ O1) as (_ & si & suf & _ & Ec & _). rewrite Ec. apply in_or_app. left. eapply some_in; [exact Sb|]. apply in_or_app. right. left. reflexivity. }
      destruct (put_ok (be_docs e) (g_lim g) did l pos _ (G1 _ _ Ee) L1 Rm Ls Lb Hd K) as (ds' & Ed & W' & K' & Nl'). rewrite Ed.
      unfold at_pc, set_entry. cbn [g_lim g_dst g_n]. apply (En own h (NRead p pos) (g_lim g) (MkEntry (be_blot e) ds') Hp (grows_refl _ _)); [discriminate|exact W'|].
      cbn [pc_ok]. split; [|exact Nl']. exists pre. split; [exact O1|]. split; [exact Ls|]. split; [exact Lb|]. split; [exact Bl|]. exists (l ++ [did]). split; [exact K'|]. rewrite app_nil_r. exact Sb.
    - (* advance *)
      assert (Ls : (pos < n)%nat) by (destruct G5 as [(pre & _ & Ls & _) _]; exact Ls). destruct (move_ok own h (nth p (h_states h) no_state) pos Hp Ls) as (h' & own' & Em & Hp' & Gr). rewrite Em.
      apply (Go own'); [exact Hp'|exact Gr|discriminate|]. exists pos. exact (placed_grows _ _ _ _ _ _ _ _ _ Gr G5).
    - (* out *)
      destruct G5 as (pos & (pre & O1 & R1) & L1). destruct (Nat.leb_spec (docs_len (be_docs e)) 1) as [Lo|Lo].
      + destruct (move_ok own h (nth p (h_states h) no_state) (N.to_nat (h_i h)) Hp E) as (h' & own' & Em & Hp' & Gr). rewrite Em. cbn zeta. unfold at_pc, set_entry. cbn [g_lim g_dst g_n].
        apply (En own'); [exact Hp'|exact Gr|discriminate| |]; cbn [be_docs pc_ok]; destruct (g_lim g); try destruct (be_docs e) as [[m back]|]; cbn [docs_wf docs_list firstn]; try exact Logic.I; try reflexivity. lia.
      + exists own. split; [exact Hp|]. split; [apply grows_refl|]. unfold g_ok. cbn [g_dst g_n g_pc g_lim].
        split; [exact G1|]. split.
        { intros j x Lj Ex. destruct (Nat.eq_dec j (g_n g)) as [->|]; [|apply (G2 j x); [lia|exact Ex]]. assert (x = e) as -> by congruence. split; [exact Lo|].
          exists pos, (rs_blot (nth p (h_states h) no_state)). destruct (B _ _ _ O1) as (_ & si & suf & _ & Ec & _). rewrite Ec. apply right_more, R1. }
        split; [intros j x Lj Ex; apply (G3 j x); [lia|exact Ex]|]. split; [discriminate|]. intros x Ex. apply (G3 (S (g_n g)) x); [lia|exact Ex].
  Qed.

  Lemma race_ok sched : forall own h gs, hp_ok own h -> Forall (g_ok own h) gs -> let '(h', gs') := next_race sched h gs in exists own', hp_ok own' h' /\ Forall (g_ok own' h') gs'.
  Proof.
    induction sched as [|i sched IH]; intros own h gs Hp Hg; cbn [NextRace.next_race]; [exists own; auto|].
    destruct (nth_error gs i) as [g|] eqn:Ei; [|exact (IH own h gs Hp Hg)].
    pose proof (step_ok own h g Hp (proj1 (Forall_forall _ _) Hg g (nth_error_In _ _ Ei))) as S1. destruct (next_step h g) as [h' g']. destruct S1 as (own' & Hp' & Gr & Hg').
    apply (IH own' h'); [exact Hp'|]. apply Forall_forall. intros x Hx. apply In_nth_error in Hx. destruct Hx as [j Ej]. rewrite nth_error_upd in Ej.
    destruct (i =? j)%nat; [destruct (nth_error gs j); [|discriminate]; assert (x = g') as -> by congruence; exact Hg'|].
    apply (g_grows own h own' h' x Gr). rewrite Forall_forall in Hg. apply Hg. eapply nth_error_In, Ej.
  Qed.
  Lemma start_ok : hp_ok (map (fun s => (s, [])) (seq 0 n)) (share (start_query ix)).
  Proof.
    pose proof (io_len _ _ _ _ I) as Ln. pose proof (io_pos _ _ _ _ I) as Ps. pose proof (io_max _ _ _ _ I) as Mx.
    assert (Lq : length (q_states (start_query ix)) = n) by (unfold start_query, set_max; cbn [q_states]; rewrite map_length; exact Ln).
    split; [cbn [share h_states]; rewrite map_length, seq_length, map_length; symmetry; exact Lq|]. split; [|split; [|split; [|split]]].
    - intros p s pre Ep. rewrite nth_error_map in Ep. destruct (nth_error (seq 0 n) p) as [s'|] eqn:E1; [|discriminate]. cbn [option_map] in Ep. injection Ep as <- <-.
      assert (L : (p < n)%nat) by (rewrite <- (seq_length n 0); apply nth_error_Some; congruence).
      assert (s' = p) as ->. { apply (nth_error_nth _ _ 0%nat) in E1. rewrite seq_nth in E1 by exact L. cbn [Nat.add] in E1. congruence. }
      destruct (nth_error (ix_shards ix) p) as [si|] eqn:Es; [|apply nth_error_None in Es; lia].
      assert (X : nth p (h_states (share (start_query ix))) no_state = read_state_at si 0); [|rewrite X; apply fresh_ok, Es].
      apply nth_error_nth. cbn [share h_states]. unfold start_query, set_max. cbn [q_states]. rewrite map_map, nth_error_map, Es. reflexivity.
    - intros i p Ei. rewrite share_at in Ei. destruct (nth_error (q_states (start_query ix)) i) as [[r|]|] eqn:Eq; try discriminate. cbn [option_map] in Ei. assert (p = i) as -> by congruence.
      assert (L : (i < n)%nat) by (rewrite <- Lq; apply nth_error_Some; congruence). exists []. rewrite nth_error_map, (nth_error_nth' (seq 0 n) 0%nat) by (rewrite seq_length; exact L). rewrite seq_nth by exact L. reflexivity.
    - cbn [share h_ptrs]. rewrite map_length, combine_length, seq_length, Lq. apply Nat.min_id.
    - cbn [share h_i]. unfold start_query, set_max. cbn [q_i q_states]. match goal with |- context [set_max_loop ?l 0 0 0] => pose proof (set_max_loop_in l 0 0 0) as R; assert (Lx : length l = n) by (rewrite map_length; exact Ln) end.
      unfold nlen in R. rewrite Lx in R. clear -R Ps. lia.
    - cbn [share h_n]. unfold start_query, set_max. cbn [q_n]. unfold nlen. rewrite Ln. unfold u32. apply N.mod_small. lia.
  Qed.
  Lemma call_ok own h dst : Forall (fun e => docs_wf (be_docs e) /\ docs_list (be_docs e) = []) dst -> g_ok own h (call_next dst).
  Proof.
    intros H. rewrite Forall_forall in H. assert (X : forall j e, nth_error dst j = Some e -> docs_wf (be_docs e) /\ docs_list (be_docs e) = []) by (intros j e E; apply H; eapply nth_error_In, E).
    unfold g_ok. cbn [call_next g_dst g_n g_pc g_lim]. split; [intros j e E; apply (X j e E)|]. split; [intros; lia|]. split; [intros j e _ E; apply (X j e E)|]. split; [discriminate|]. intros e E. apply (X 0%nat e E).
  Qed.
  Lemma right_at e s b : right e s b (content s b) [] -> be_blot e < N.of_nat n * 65536 /\ exists l, docs_keys (be_docs e) = map place l /\ some_of l (at_blot n content (be_blot e)).
  Proof.
    intros (Ls & Lb & Bl & l & K & Sb). rewrite app_nil_r in Sb.
    assert (Mx := io_max _ _ _ _ I). assert (Ps := io_pos _ _ _ _ I). unfold num_slots in Lb. assert (Nm : name s b = N.of_nat b * N.of_nat n + N.of_nat s /\ N.of_nat b * N.of_nat n + N.of_nat s < N.of_nat n * 65536).
    { assert (X : N.of_nat b * N.of_nat n <= 65535 * N.of_nat n) by (apply N.mul_le_mono_r; lia). assert (Y : N.of_nat b * N.of_nat n + N.of_nat s < N.of_nat n * 65536) by lia.
      split; [|exact Y]. unfold name, fill_blot_id, add32, u32. rewrite (N.mod_small (N.of_nat b)) by lia. rewrite (N.mod_small (N.of_nat b * N.of_nat n)) by lia. apply N.mod_small. lia. }
    destruct Nm as [Nm Lt]. rewrite Bl, Nm. split; [exact Lt|]. unfold at_blot.
    assert (E1 : (N.of_nat b * N.of_nat n + N.of_nat s) mod N.of_nat n = N.of_nat s) by (rewrite N.add_comm, N.mod_add by lia; apply N.mod_small; lia).
    assert (E2 : (N.of_nat b * N.of_nat n + N.of_nat s) / N.of_nat n = N.of_nat b) by (rewrite N.add_comm, N.div_add by lia; rewrite N.div_small by lia; lia).
    rewrite E1, E2. rewrite N.mod_small by (clear -Lb; lia). rewrite !Nat2N.id. exists l. split; [exact K|exact Sb].
  Qed.
End Sound.
