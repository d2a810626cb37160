(** Calls of doc2Id that do not overlap. *)
From Coq Require Import Lia.
From Verif Require Import Model.Base Model.Dmd Model.Path Model.Fnames Model.AddRace Model.PathRace Model.DocRace.
From Verif Require Import Spec.Paths Proof.Tactics Proof.PathP Proof.FnamesP Proof.CrashP2 Proof.AddRaceP Proof.PathRaceP Proof.DocRaceP.
Local Open Scope N_scope.

Lemma adder_adds_length : forall ds st, length (snd (adder_adds st ds)) = length ds.
Proof.
  induction ds as [|d ds IH]; intros st; cbn [adder_adds]; [reflexivity|]. destruct (adder_add st d) as [st1 i]. specialize (IH st1). destruct (adder_adds st1 ds) as [st2 is]. cbn [snd length] in *. congruence.
Qed.
Section Turns.
  Variables growp growr : nat -> nat.
  Notation doc_race := (doc_race growp growr).
  Fixpoint doc_alone (k : nat) (s : pset) (m : mem) (t : adding_doc) : pset * mem * adding_doc :=
    match k with O => (s, m, t) | S k => let '(s', m', t') := doc_step growp growr s m t in doc_alone k s' m' t' end.
  Lemma upd_twice {A} (x y : A) : forall l i, upd i x (upd i y l) = upd i x l.
  Proof. induction l as [|a l IH]; intros [|i]; cbn [upd]; try reflexivity. f_equal. apply IH. Qed.
  Lemma drace_alone k : forall i s m ts t, nth_error ts i = Some t ->
    doc_race (repeat i k) s m ts = let '(s', m', t') := doc_alone k s m t in (s', m', upd i t' ts).
  Proof.
    induction k as [|k IH]; intros i s m ts t E; cbn [repeat DocRace.doc_race doc_alone].
    - rewrite upd_id by exact E. reflexivity.
    - rewrite E. destruct (doc_step growp growr s m t) as [[s1 m1] t1].
      assert (Li : (i < length ts)%nat) by (apply nth_error_Some; congruence).
      rewrite (IH i s1 m1 (upd i t1 ts) t1 (nth_error_upd_eq _ _ _ Li)). destruct (doc_alone k s1 m1 t1) as [[s2 m2] t2]. rewrite upd_twice. reflexivity.
  Qed.
  Lemma doc_alone_add a : forall b s m t, doc_alone (a + b) s m t = let '(s', m', t') := doc_alone a s m t in doc_alone b s' m' t'.
  Proof. induction a as [|a IH]; intros b s m t; cbn [Nat.add doc_alone]; [reflexivity|]. destruct (doc_step growp growr s m t) as [[s1 m1] t1]. apply IH. Qed.
  Lemma path_alone st en m s' n : forall k s q, by_itself growp k s q = (s', QDone n) ->
    exists j, (j <= k)%nat /\ doc_alone j s m (DPath q st en) = (s', m, DPath (QDone n) st en).
  Proof.
    induction k as [|k IH]; intros s q E.
    - cbn [by_itself] in E. assert (s = s') as -> by congruence. assert (q = QDone n) as -> by congruence. exists 0%nat. split; [lia|reflexivity].
    - assert (C : (exists i, q = QDone i) \/ doc_step growp growr s m (DPath q st en) = let '(s', q') := path_step growp s q in (s', m, DPath q' st en)).
      { destruct q; try (right; reflexivity). left. eauto. }
      destruct C as [[i ->]|C].
      + rewrite by_itself_done in E. assert (s = s') as -> by congruence. assert (i = n) as -> by congruence. exists 0%nat. split; [lia|reflexivity].
      + cbn [by_itself] in E. destruct (path_step growp s q) as [s1 q1]. destruct (IH s1 q1 E) as (j & Lj & Ej). exists (S j). split; [lia|]. cbn [doc_alone]. rewrite C. exact Ej.
  Qed.
  Lemma rec_alone s n : forall k m c, doc_alone k s m (DRec n c) = let '(m', c') := alone growr k m c in (s, m', DRec n c').
  Proof.
    induction k as [|k IH]; intros m c; cbn [doc_alone alone doc_step]; [reflexivity|]. destruct (add_step growr m c) as [m1 c1]. apply IH.
  Qed.
  (** One call. *)
  Lemma doc_call d s m d1 n K1 K : pset_ok s -> mem_ok m -> add_path (ta_cwd d) (paths_of s) (ta_path d) = Ok (d1, n) ->
    (8 * length (path_parts (path_abs (ta_cwd d) (ta_path d))) + 1 <= K1)%nat -> (K1 + 1 + (m_len m + 9) <= K)%nat ->
    exists s' m' did, doc_alone K s m (begin_doc d) = (s', m', DRec n (PDone did)) /\ pset_ok s' /\ mem_ok m' /\ paths_of s' = d1 /\
      adder_add (adder_of m) (MkFields n (ta_start d) (ta_end d)) = (adder_of m', did).
  Proof.
    intros O Om Ea HK1 HK. destruct (call_is_add growp s _ _ _ _ O Ea K1 HK1) as (s1 & E1 & O1 & P1).
    destruct (path_alone (ta_start d) (ta_end d) m s1 n K1 s _ E1) as (j & Lj & Ej).
    destruct (alone_add_spec growr (MkFields n (ta_start d) (ta_end d)) m Om) as (m1 & did & Er & Om1 & A).
    exists s1, m1, did. split; [|auto]. replace K with (j + (1 + (K - j - 1)))%nat by lia.
    rewrite doc_alone_add. unfold begin_doc. rewrite Ej. rewrite doc_alone_add. cbn [doc_alone doc_step]. rewrite rec_alone, Er by lia. reflexivity.
  Qed.
  Definition doc_ops (docs : list to_add) : list fn_op := map (fun d => FnAdd (ta_cwd d) (ta_path d)) docs.
  Definition at_pos (docs : list to_add) : list (N * N) := map (fun d => (ta_start d, ta_end d)) docs.
  Lemma docs_in_turn K1 K : forall docs done s m d ids, pset_ok s -> mem_ok m ->
    (forall x, In x docs -> (8 * length (path_parts (path_abs (ta_cwd x) (ta_path x))) + 1 <= K1)%nat) -> (K1 + m_len m + length docs + 10 <= K)%nat ->
    fn_run (paths_of s) (doc_ops docs) = Ok (d, ids) ->
    exists s' m' dids, doc_race (concat (map (fun i => repeat i K) (seq (length done) (length docs)))) s m (done ++ map begin_doc docs) = (s', m', done ++ with_num ids (map PDone dids)) /\
      pset_ok s' /\ mem_ok m' /\ paths_of s' = d /\ length ids = length docs /\ adder_adds (adder_of m) (recs ids (at_pos docs)) = (adder_of m', dids).
  Proof.
    induction docs as [|x docs IH]; intros done s m d ids O Om HK1 HK E; cbn [doc_ops map fn_run length seq concat] in *.
    - assert (d = paths_of s) as -> by congruence. assert (ids = []) as -> by congruence. exists s, m, []. repeat (split; [first [reflexivity|assumption]|]). reflexivity.
    - destruct (add_path (ta_cwd x) (paths_of s) (ta_path x)) as [[d1 n]| | |] eqn:Ea; cbn [bind] in E; try discriminate. fold (doc_ops docs) in E.
      destruct (fn_run d1 (doc_ops docs)) as [[d2 ids1]| | |] eqn:Er; cbn [bind] in E; try discriminate.
      assert (d = d2) as -> by congruence. assert (ids = n :: ids1) as -> by congruence.
      destruct (doc_call x s m d1 n K1 K O Om Ea (HK1 x (or_introl eq_refl)) ltac:(lia)) as (s1 & m1 & did & E1 & O1 & Om1 & P1 & A1). subst d1.
      pose proof (alone_len _ _ _ _ Om Om1 A1) as Ll.
      destruct (IH (done ++ [DRec n (PDone did)]) s1 m1 d2 ids1 O1 Om1) as (s2 & m2 & dids & E2 & O2 & Om2 & P2 & L2 & A2); [intros y Hy; apply HK1; right; exact Hy|lia|exact Er|].
      exists s2, m2, (did :: dids). split.
      + rewrite drace_app, (drace_alone K _ s m _ (begin_doc x)) by (rewrite nth_error_app2, Nat.sub_diag by lia; reflexivity). rewrite E1.
        rewrite upd_middle. rewrite app_length in E2. cbn [length] in E2. replace (length done + 1)%nat with (S (length done)) in E2 by lia.
        rewrite <- !app_assoc in E2. exact E2.
      + split; [exact O2|]. split; [exact Om2|]. split; [exact P2|]. split; [cbn [length]; congruence|].
        unfold recs in *. cbn [at_pos map combine adder_adds fst snd] in *. rewrite A1. fold (at_pos docs). rewrite A2. reflexivity.
  Qed.
End Turns.
