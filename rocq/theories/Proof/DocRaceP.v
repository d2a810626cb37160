(** Several goroutines in doc2Id. *)
From Coq Require Import Lia.
From Verif Require Import Model.Base Model.Dmd Model.Path Model.Fnames Model.AddRace Model.PathRace Model.DocRace.
From Verif Require Import Spec.Paths Proof.Tactics Proof.FnamesP Proof.CrashP2 Proof.AddRaceP Proof.PathRaceP.
Local Open Scope N_scope.

Section Race.
  Variables growp growr : nat -> nat.
  Notation doc_race := (doc_race growp growr).
  Notation path_race := (path_race growp).
  Notation race := (race growr).
  Lemma drace_app s1 : forall s2 s m ts, doc_race (s1 ++ s2) s m ts = let '(s', m', ts') := doc_race s1 s m ts in doc_race s2 s' m' ts'.
  Proof.
    induction s1 as [|i s1 IH]; intros s2 s m ts; cbn [app DocRace.doc_race]; [reflexivity|].
    destruct (nth_error ts i) as [c|]; [|apply IH]. destruct (doc_step growp growr s m c) as [[s' m'] c']. apply IH.
  Qed.
  Lemma race_length : forall sched m cs, length (snd (race sched m cs)) = length cs.
  Proof.
    induction sched as [|i r IH]; intros m cs; cbn [AddRace.race]; [reflexivity|]. destruct (nth_error cs i) as [c|]; [|apply IH].
    destruct (add_step growr m c) as [m1 c1]. rewrite IH, upd_length. reflexivity.
  Qed.
  Lemma prace_length : forall sched s qs, length (snd (path_race sched s qs)) = length qs.
  Proof.
    induction sched as [|i r IH]; intros s qs; cbn [PathRace.path_race]; [reflexivity|]. destruct (nth_error qs i) as [q|]; [|apply IH].
    destruct (path_step growp s q) as [s1 q1]. rewrite IH, upd_length. reflexivity.
  Qed.
  (** Any race for paths can be the first part of one for documents. *)
  Fixpoint with_pos (qs : list adding) (ps : list (N * N)) : list adding_doc :=
    match qs, ps with q :: qs, p :: ps => DPath q (fst p) (snd p) :: with_pos qs ps | _, _ => [] end.
  Lemma with_pos_at : forall qs ps i q, length qs = length ps -> nth_error qs i = Some q -> exists p, nth_error ps i = Some p /\ nth_error (with_pos qs ps) i = Some (DPath q (fst p) (snd p)).
  Proof.
    induction qs as [|q0 qs IH]; intros [|p ps] [|i] q L E; cbn [length nth_error with_pos] in *; try discriminate.
    - exists p. assert (q0 = q) as -> by congruence. auto.
    - apply IH; [lia|exact E].
  Qed.
  Lemma with_pos_upd : forall qs ps i q p, length qs = length ps -> nth_error ps i = Some p -> upd i (DPath q (fst p) (snd p)) (with_pos qs ps) = with_pos (upd i q qs) ps.
  Proof.
    induction qs as [|q0 qs IH]; intros [|p0 ps] [|i] q p L E; cbn [length nth_error with_pos upd] in *; try discriminate.
    - assert (p0 = p) as -> by congruence. reflexivity.
    - f_equal. apply IH; [lia|exact E].
  Qed.
  Lemma lift_paths m : forall sched s qs ps, length qs = length ps ->
    exists sched', doc_race sched' s m (with_pos qs ps) = let '(s', qs') := path_race sched s qs in (s', m, with_pos qs' ps).
  Proof.
    induction sched as [|i sched IH]; intros s qs ps L; cbn [PathRace.path_race]; [exists []; reflexivity|].
    destruct (nth_error qs i) as [q|] eqn:Eq; [|apply IH, L].
    assert (C : (exists n, q = QDone n) \/ forall st en, doc_step growp growr s m (DPath q st en) = let '(s', q') := path_step growp s q in (s', m, DPath q' st en)).
    { destruct q; try (right; reflexivity). left. eauto. }
    destruct C as [[n ->]|C].
    - cbn [PathRace.path_step]. rewrite upd_id by exact Eq. apply IH, L.
    - destruct (path_step growp s q) as [s1 q1] eqn:E1. destruct (IH s1 (upd i q1 qs) ps) as [sched' E']; [rewrite upd_length; exact L|].
      exists (i :: sched'). cbn [DocRace.doc_race]. destruct (with_pos_at qs ps i q L Eq) as (p & Ep & ->). rewrite C.
      rewrite with_pos_upd by assumption. exact E'.
  Qed.
  (** And any race for records the last. *)
  Definition with_num (ns : list N) (cs : list pc) : list adding_doc := map (fun x => DRec (fst x) (snd x)) (combine ns cs).
  Lemma with_num_at : forall ns cs i c, length ns = length cs -> nth_error cs i = Some c -> exists n, nth_error ns i = Some n /\ nth_error (with_num ns cs) i = Some (DRec n c).
  Proof.
    induction ns as [|n0 ns IH]; intros [|c0 cs] [|i] c L E; cbn [length nth_error] in *; try discriminate.
    - exists n0. assert (c0 = c) as -> by congruence. auto.
    - apply IH; [lia|exact E].
  Qed.
  Lemma with_num_upd : forall ns cs i n c, length ns = length cs -> nth_error ns i = Some n -> upd i (DRec n c) (with_num ns cs) = with_num ns (upd i c cs).
  Proof.
    induction ns as [|n0 ns IH]; intros [|c0 cs] [|i] n c L E; cbn [length nth_error] in *; try discriminate.
    - assert (n0 = n) as -> by congruence. reflexivity.
    - cbn [upd]. unfold with_num in *. cbn [combine map upd fst snd]. f_equal. apply IH; [lia|exact E].
  Qed.
  Lemma lift_records s ns : forall sched m cs, length ns = length cs ->
    doc_race sched s m (with_num ns cs) = let '(m', cs') := race sched m cs in (s, m', with_num ns cs').
  Proof.
    induction sched as [|i sched IH]; intros m cs L; cbn [AddRace.race DocRace.doc_race]; [reflexivity|].
    destruct (nth_error cs i) as [c|] eqn:Ec.
    - destruct (with_num_at ns cs i c L Ec) as (n & En & ->). cbn [doc_step]. destruct (add_step growr m c) as [m1 c1]. rewrite with_num_upd by assumption. apply IH. rewrite upd_length. exact L.
    - assert (nth_error (with_num ns cs) i = None) as -> by (apply nth_error_None; unfold with_num; rewrite map_length, combine_length; apply nth_error_None in Ec; lia). apply IH, L.
  Qed.
  (** In between. *)
  Lemma crossing s m : forall todo done ns ps, length ns = length ps -> todo = seq (length done) (length ns) ->
    doc_race todo s m (done ++ with_pos (map QDone ns) ps) =
    (s, m, done ++ with_num ns (map (fun x => PEnter (MkFields (fst x) (fst (snd x)) (snd (snd x)))) (combine ns ps))).
  Proof.
    intros todo done ns. revert todo done. induction ns as [|n ns IH]; intros todo done [|p ps] L ->; cbn [length seq DocRace.doc_race] in *; try discriminate; [reflexivity|].
    rewrite nth_error_app2 by lia. rewrite Nat.sub_diag. cbn [map with_pos nth_error doc_step combine fst snd].
    rewrite upd_middle.
    set (r := DRec n _). specialize (IH (seq (length (done ++ [r])) (length ns)) (done ++ [r]) ps ltac:(lia) eq_refl). rewrite <- !app_assoc in IH. cbn [app] in IH.
    replace (length (done ++ [r])) with (S (length done)) in IH by (rewrite app_length; cbn [length]; lia). exact IH.
  Qed.
  Definition recs (ns : list N) (ps : list (N * N)) : list fields := map (fun x => MkFields (fst x) (fst (snd x)) (snd (snd x))) (combine ns ps).
  Lemma both_parts sched s s' m qs ns ps : length qs = length ps -> mem_ok m ->
    path_race sched s qs = (s', map QDone ns) ->
    exists sched' m' dids, doc_race sched' s m (with_pos qs ps) = (s', m', with_num ns (map PDone dids)) /\ adder_adds (adder_of m) (recs ns ps) = (adder_of m', dids) /\ mem_ok m'.
  Proof.
    intros L O E. destruct (lift_paths m sched s qs ps L) as [sc1 E1]. rewrite E in E1.
    assert (Lq : length (map QDone ns) = length qs) by (rewrite <- (prace_length sched s qs); rewrite E; reflexivity).
    rewrite map_length in Lq.
    pose proof (crossing s' m (seq 0 (length ns)) [] ns ps ltac:(lia) eq_refl) as E2. cbn [app] in E2.
    set (cs := map (fun x => PEnter (MkFields (fst x) (fst (snd x)) (snd (snd x)))) (combine ns ps)) in *.
    assert (Lc : length cs = length ns) by (unfold cs; rewrite map_length, combine_length; lia).
    set (doc := fun i => nth i (recs ns ps) zero_fields).
    assert (Lr : length (recs ns ps) = length ns) by (unfold recs; rewrite map_length, combine_length; lia).
    destruct (in_turn growr doc (seq 0 (length ns)) m cs (m_len m + length ns + 9) O) as (m' & cs' & dids & R & O' & A & F & _).
    - apply seq_NoDup.
    - intros i Hi. apply in_seq in Hi. unfold cs, doc, recs. rewrite nth_error_map.
      destruct (nth_error (combine ns ps) i) as [x|] eqn:Ex; [|apply nth_error_None in Ex; rewrite combine_length in Ex; lia]. cbn [option_map]. f_equal. f_equal. symmetry. apply nth_error_nth. rewrite nth_error_map, Ex. reflexivity.
    - rewrite seq_length. lia.
    - assert (Em : map doc (seq 0 (length ns)) = recs ns ps).
      { apply nth_error_ext. intros i. rewrite nth_error_map. destruct (Nat.lt_ge_cases i (length ns)) as [Li|Li].
        - rewrite (nth_error_nth' (seq 0 (length ns)) 0%nat) by (rewrite seq_length; exact Li). rewrite seq_nth by exact Li. cbn [option_map Nat.add]. unfold doc. symmetry. apply nth_error_nth'. lia.
        - rewrite (proj2 (nth_error_None (seq 0 (length ns)) i)) by (rewrite seq_length; exact Li). symmetry. apply nth_error_None. lia. }
      rewrite Em in A.
      assert (Ld : length dids = length ns) by (rewrite <- (seq_length (length ns) 0); revert F; generalize (seq 0 (length ns)) as l; clear; intros l F; induction F; cbn [length]; congruence).
      assert (Lc' : length cs' = length cs) by (rewrite <- (race_length (concat (map (fun i => repeat i (m_len m + length ns + 9)) (seq 0 (length ns)))) m cs); rewrite R; reflexivity).
      assert (Ec : cs' = map PDone dids).
      { apply nth_error_ext. intros i. rewrite nth_error_map. destruct (Nat.lt_ge_cases i (length ns)) as [Li|Li].
        - destruct (nth_error dids i) as [did|] eqn:Ed; [|apply nth_error_None in Ed; lia]. cbn [option_map].
          assert (Es : nth_error (seq 0 (length ns)) i = Some i) by (rewrite (nth_error_nth' _ 0%nat) by (rewrite seq_length; exact Li); rewrite seq_nth by exact Li; reflexivity).
          exact (forall2_at _ _ _ F i _ _ Es Ed).
        - rewrite (proj2 (nth_error_None dids i)) by lia. apply nth_error_None. lia. }
      subst cs'. eexists. exists m', dids. split; [|split; [exact A|exact O']].
      instantiate (1 := sc1 ++ seq 0 (length ns) ++ concat (map (fun i => repeat i (m_len m + length ns + 9)) (seq 0 (length ns)))).
      rewrite drace_app, E1, drace_app, E2, lift_records by lia. rewrite R. reflexivity.
  Qed.

  (** What the goroutines are doing to the path set. *)
  Definition path_part (t : adding_doc) : adding := match t with DPath q _ _ => q | DRec n _ => QDone n end.
  Lemma path_projection : forall sched s m ts, let '(s', _, ts') := doc_race sched s m ts in path_race sched s (map path_part ts) = (s', map path_part ts').
  Proof.
    induction sched as [|i sched IH]; intros s m ts; cbn [DocRace.doc_race PathRace.path_race]; [reflexivity|]. rewrite nth_error_map.
    destruct (nth_error ts i) as [t|] eqn:Et; cbn [option_map]; [|apply IH].
    assert (C : let '(s1, _, t1) := doc_step growp growr s m t in path_step growp s (path_part t) = (s1, path_part t1)).
    { destruct t as [q st en|n c]; cbn [doc_step path_part].
      - destruct q; cbn [path_part]; try reflexivity; match goal with |- context [path_step growp s ?q] => destruct (path_step growp s q) as [s1 q1] eqn:E1 end; cbn [path_part]; reflexivity || exact E1.
      - destruct (add_step growr m c) as [m1 c1]. reflexivity. }
    destruct (doc_step growp growr s m t) as [[s1 m1] t1]. rewrite C. specialize (IH s1 m1 (upd i t1 ts)). rewrite map_upd in IH. exact IH.
  Qed.
  Lemma docs_longer old : forall sched s m ts, longer old (m_file m) -> longer old (m_file (snd (fst (doc_race sched s m ts)))).
  Proof.
    induction sched as [|i sched IH]; intros s m ts Lg; cbn [DocRace.doc_race]; [exact Lg|].
    destruct (nth_error ts i) as [t|]; [|apply IH, Lg].
    assert (C : longer old (m_file (snd (fst (doc_step growp growr s m t))))).
    { destruct t as [q st en|n c]; cbn [doc_step].
      - destruct q; try exact Lg; match goal with |- context [path_step growp s ?q] => destruct (path_step growp s q) as [s1 q1] end; exact Lg.
      - pose proof (race_longer growr old [0%nat] m [c] Lg) as R. cbn [AddRace.race nth_error] in R. destruct (add_step growr m c) as [m1 c1]. exact R. }
    destruct (doc_step growp growr s m t) as [[s1 m1] t1]. apply IH. exact C.
  Qed.
End Race.
