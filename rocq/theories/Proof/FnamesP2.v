(** The path set holds nothing but what was added. *)
From Coq Require Import Permutation.
From Verif Require Import Model.Base Model.Path Model.Fnames Model.Index Spec.Paths Spec.History Proof.Tactics Proof.PathP Proof.FnamesP.
Local Open Scope N_scope.

Lemma one_more d d1 parent p cs : wf d1 -> wf d -> extends d d1 -> length d1 = S (length d) ->
  (exists nd, at_ d1 (nlen d) = Some nd /\ n_parent nd = parent /\ n_name nd = p) -> is_path d parent cs ->
  forall i q, is_path d1 i q -> is_path d i q \/ q = cs ++ [p].
Proof.
  intros W1 W X L (nd & An & Ap & Anm) Hcs i q H. induction H as [|i x q Hi Hx Hq IH]; [left; constructor|].
  pose proof (at_lt _ _ _ Hx) as Li. unfold nlen in *.
  destruct (N.eq_dec i (N.of_nat (length d))) as [->|Ni].
  - right. assert (x = nd) as -> by congruence. rewrite Anm. f_equal. rewrite Ap in Hq.
    eapply is_path_fun; [exact Hq|]. eapply extends_path; eauto.
  - left. destruct (at_some d i) as [x0 H0]; [unfold nlen; lia|].
    destruct (extends_at _ _ _ _ X H0) as (x1 & E1 & E2 & E3). assert (x1 = x) as -> by congruence.
    rewrite E3. constructor; auto. rewrite <- E2.
    destruct (is_path_total d W (n_parent x)) as (q0 & Q0 & _).
    { pose proof (wf_parent d W i x0 Hi H0). unfold nlen. rewrite E2. lia. }
    rewrite (is_path_fun _ _ _ Hq q0); [exact Q0|]. eapply extends_path; eauto.
Qed.
Lemma add_parts_nodes parts : forall d parent cs d' id,
  wf d -> is_path d parent cs -> nlen d + nlen parts < 4294967296 -> Forall (fun p => nlen p < 4294967296) parts ->
  add_parts d parent parts = Ok (d', id) ->
  forall i q, is_path d' i q -> is_path d i q \/ exists pre suf, q = cs ++ pre /\ parts = pre ++ suf.
Proof.
  induction parts as [|p parts IH]; intros d parent cs d' id W Hcs Hs Hp E i q Hq.
  - cbn [add_parts] in E. assert (d' = d) as -> by congruence. left. exact Hq.
  - cbn [add_parts] in E. pose proof (is_path_lt _ _ _ W Hcs) as Hl. destruct (at_some _ _ Hl) as [nd Hnd].
    rewrite Hnd in E. inversion Hp as [|? ? Hp1 Hp2]; subst. unfold nlen in Hs. cbn [length] in Hs.
    destruct (N.eqb_spec (sget p (n_children nd)) 0) as [Hz|Hz].
    + destruct (add_new_wf d parent nd p W Hnd Hz) as [W' S']; [unfold nlen; lia|assumption|].
      assert (u32 (nlen d) = nlen d) as Eu by (unfold u32, nlen in *; rewrite N.mod_small by lia; reflexivity).
      rewrite Eu in E. set (d1 := upd _ _ d ++ _) in *.
      assert (length d1 = S (length d)) as L1.
      { rewrite <- (skel_length d1), S', app_length, skel_length. cbn [length]. lia. }
      assert (extends d d1) as X by (eexists; exact S').
      assert (at_ d1 (nlen d) = Some (MkFname parent p [])) as Anew.
      { unfold d1, nlen in *. rewrite nth_error_app2 by (rewrite upd_length; lia).
        rewrite upd_length, Nnat.Nat2N.id, Nat.sub_diag. reflexivity. }
      assert (P1 : is_path d1 (nlen d) (cs ++ [p])).
      { change p with (n_name (MkFname parent p [])). constructor; auto.
        - unfold nlen in *. lia.
        - cbn [n_parent]. eapply extends_path; eauto. }
      destruct (IH d1 (nlen d) (cs ++ [p]) d' id W' P1 ltac:(unfold nlen in *; lia) Hp2 E i q Hq) as [Hq1|(pre & suf & -> & ->)].
      * destruct (one_more d d1 parent p cs W' W X L1 ltac:(eauto) Hcs i q Hq1) as [A| ->]; [left; exact A|].
        right. exists [p], parts. split; reflexivity.
      * right. exists (p :: pre), suf. rewrite <- app_assoc. split; reflexivity.
    + destruct (wf_child d W _ _ _ _ Hnd eq_refl Hz) as (nc & C1 & C2 & C3).
      assert (P1 : is_path d (sget p (n_children nd)) (cs ++ [p])).
      { pose proof (IPS d (sget p (n_children nd)) nc cs ltac:(lia) C1) as Q. rewrite C2, C3 in Q. exact (Q Hcs). }
      destruct (IH d _ (cs ++ [p]) d' id W P1 ltac:(unfold nlen in *; lia) Hp2 E i q Hq) as [Hq1|(pre & suf & -> & ->)]; [left; exact Hq1|].
      right. exists (p :: pre), suf. rewrite <- app_assoc. split; reflexivity.
Qed.
Lemma add_path_nodes cwd d path d' id : rooted cwd -> wf d -> nlen d + room1 (FnAdd cwd path) < 4294967296 ->
  add_path cwd d path = Ok (d', id) ->
  forall i q, is_path d' i q -> is_path d i q \/ exists suf, parts_of (spec_abs cwd path) = q ++ suf.
Proof.
  intros R W Hs E i q Hq. unfold add_path in E. rewrite path_abs_spec in E by exact R.
  rewrite path_parts_show in E by apply spec_abs_ok. cbn [room1] in *.
  destruct (parts_of_bounds cwd path (nlen (show_abs (spec_abs cwd path)))) as [B1 B2]; [lia|lia|].
  destruct (add_parts_nodes (parts_of (spec_abs cwd path)) d 0 [] d' id W (IP0 d) ltac:(unfold nlen in *; lia) B2 E i q Hq) as [A|(pre & suf & -> & E2)]; [left; exact A|].
  right. exists suf. exact E2.
Qed.

Definition node_of (docs : list (bytes * doc)) (q : list bytes) : Prop := q = [] \/ exists p suf, In p docs /\ tree_path p = q ++ suf.
Lemma tree_path_parts p : tree_path p = parts_of (spec_abs (fst p) (d_path (snd p))).
Proof. unfold tree_path, parts_of. destruct (spec_abs _ _); reflexivity. Qed.
Lemma in_prefixes {A} (q l : list A) : In q (prefixes l) <-> exists suf, l = q ++ suf.
Proof.
  unfold prefixes. rewrite in_map_iff. split.
  - intros (i & <- & _). exists (skipn i l). symmetry. apply firstn_skipn.
  - intros [suf ->]. exists (length q). rewrite app_length, in_seq. split; [|lia].
    rewrite firstn_app, firstn_all, Nat.sub_diag, app_nil_r. reflexivity.
Qed.
Lemma in_tree_nodes docs q : In q (tree_nodes docs) <-> node_of docs q.
Proof.
  unfold tree_nodes, node_of. rewrite nodup_In. cbn [In]. rewrite in_concat. split.
  - intros [<-|(x & Hx & Hq)]; [left; reflexivity|]. right. apply in_map_iff in Hx. destruct Hx as (p & <- & Hp).
    apply in_prefixes in Hq. destruct Hq as [suf E]. exists p, suf. auto.
  - intros [->|(p & suf & Hp & E)]; [left; reflexivity|]. right. exists (prefixes (tree_path p)). split.
    + apply in_map_iff. exists p. auto.
    + apply in_prefixes. exists suf. exact E.
Qed.
Lemma all_paths d : wf d -> forall n, (n <= length d)%nat -> exists P, Forall2 (fun i q => is_path d (N.of_nat i) q) (seq 0 n) P.
Proof.
  intros W. induction n as [|n IH]; intros L; [exists []; constructor|]. destruct (IH ltac:(lia)) as [P F].
  destruct (is_path_total d W (N.of_nat n)) as (q & Hq & _); [unfold nlen; lia|]. exists (P ++ [q]).
  rewrite seq_S. apply Forall2_app; [exact F|]. constructor; [exact Hq|constructor].
Qed.
Lemma nodes_count d docs : wf d -> (forall q, node_of docs q <-> exists i, is_path d i q) -> nlen d = nlen (tree_nodes docs).
Proof.
  intros W Nq. destruct (all_paths d W (length d) (le_n _)) as [P F].
  assert (In1 : forall q, In q P <-> exists i, is_path d i q).
  { intros q. split.
    - intros Hq. clear W Nq. induction F as [|i x s P Hx F IH]; [destruct Hq|]. destruct Hq as [->|Hq]; [eauto|auto].
    - intros [i Hi]. pose proof (is_path_lt _ _ _ W Hi) as L. unfold nlen in L.
      assert (Hs : In (N.to_nat i) (seq 0 (length d))) by (apply in_seq; lia).
      clear Nq L. revert Hs. induction F as [|j x s P Hx F IH]; intros Hs; [destruct Hs|]. destruct Hs as [->|Hs]; [|right; auto].
      left. rewrite N2Nat.id in Hx. eapply is_path_fun; eauto. }
  assert (Nd : NoDup P).
  { assert (Ns : NoDup (seq 0 (length d))) by apply seq_NoDup. clear In1 Nq. induction F as [|j x s P Hx F IH]; [constructor|].
    inversion Ns as [|? ? N1 N2]; subst. constructor; [|auto]. intros C. apply N1. clear IH N1 N2 Ns.
    induction F as [|i y s P Hy F IH]; [destruct C|]. destruct C as [->|C]; [|right; auto]. left.
    pose proof (is_path_inj d W _ _ Hx _ Hy). lia. }
  assert (Pm : Permutation P (tree_nodes docs)).
  { apply NoDup_Permutation; [exact Nd|apply NoDup_nodup|]. intros q. rewrite In1, in_tree_nodes, Nq. reflexivity. }
  apply Permutation_length in Pm. unfold nlen. rewrite <- Pm.
  assert (L : length (seq 0 (length d)) = length P) by (clear -F; induction F; cbn [length]; congruence).
  rewrite seq_length in L. lia.
Qed.
