(** The path set: ids name component lists; writing and reading back keeps them. *)
From Verif Require Import Model.Base Model.Varint Model.Path Model.Fnames Spec.Paths
  Proof.Tactics Proof.VarintP Proof.PathP.
Local Open Scope N_scope.

(** * Reversal *)
Lemma swap_loop_spec n : forall (A M B : list bytes) todo i N_,
  length M = n -> length A = length B -> i = length A -> N_ = (length (A ++ M ++ B) - 1)%nat ->
  todo = (length M / 2)%nat -> swap_loop todo i N_ (A ++ M ++ B) = A ++ rev M ++ B.
Proof.
  induction n as [n IH] using lt_wf_ind. intros A M B todo i N_ Hn HAB Hi HN Ht.
  destruct M as [|x M].
  { subst todo. reflexivity. }
  destruct M as [|z M _] using rev_ind.
  { subst todo. reflexivity. }
  assert (length (x :: M ++ [z]) = S (S (length M))) as L
    by (cbn [length]; rewrite app_length; cbn [length]; lia).
  assert (todo = S (length M / 2)) as ->.
  { rewrite Ht, L. change (S (S (length M))) with (2 + length M)%nat.
    rewrite (Nat.add_comm 2). change 2%nat with (1 * 2)%nat at 1. rewrite Nat.div_add by lia. lia. }
  cbn [swap_loop].
  assert (N_ - i = length (A ++ x :: M))%nat as HNi.
  { rewrite HN, Hi, !app_length, L. cbn [length]. lia. }
  assert (A ++ (x :: M ++ [z]) ++ B = (A ++ x :: M) ++ z :: B) as E1.
  { rewrite <- app_assoc. cbn [app]. rewrite <- app_assoc. reflexivity. }
  assert (nth i (A ++ (x :: M ++ [z]) ++ B) [] = x) as Ex.
  { rewrite Hi, app_nth2, Nat.sub_diag by lia. reflexivity. }
  assert (nth (N_ - i) (A ++ (x :: M ++ [z]) ++ B) [] = z) as Ez.
  { rewrite HNi, E1, app_nth2, Nat.sub_diag by lia. reflexivity. }
  rewrite Ex, Ez.
  assert (upd i z (A ++ (x :: M ++ [z]) ++ B) = (A ++ z :: M) ++ z :: B) as E2.
  { rewrite Hi. cbn [app]. rewrite upd_middle, <- !app_assoc. cbn [app]. reflexivity. }
  rewrite E2, HNi.
  replace (length (A ++ x :: M)) with (length (A ++ z :: M)) by (rewrite !app_length; reflexivity).
  rewrite upd_middle.
  replace ((A ++ z :: M) ++ x :: B) with ((A ++ [z]) ++ M ++ (x :: B))
    by (rewrite <- !app_assoc; reflexivity).
  rewrite (IH (length M)); try reflexivity.
  - cbn [rev]. rewrite rev_app_distr. cbn [rev app]. rewrite <- !app_assoc. reflexivity.
  - subst n. lia.
  - rewrite app_length. cbn [length]. lia.
  - rewrite app_length. cbn [length]. lia.
  - rewrite HN. rewrite !app_length. cbn [length]. rewrite app_length. cbn [length]. lia.
Qed.
Lemma reverse_parts_rev l : reverse_parts l = rev l.
Proof.
  unfold reverse_parts.
  pose proof (swap_loop_spec (length l) [] l [] (length l / 2)%nat 0%nat (length l - 1)%nat) as H.
  cbn [app] in H. rewrite !app_nil_r in H. apply H; reflexivity.
Qed.

(** * The tree *)
Lemma beq_bytes_spec a b : reflect (a = b) (beq_bytes a b).
Proof.
  revert b; induction a as [|x a IH]; intros [|y b]; cbn [beq_bytes]; try (constructor; congruence).
  destruct (N.eqb_spec x y) as [->|H]; cbn [andb]; [|constructor; congruence].
  destruct (IH b) as [->|H]; constructor; congruence.
Qed.
Lemma sget_sset_eq k v m : sget k (sset k v m) = v.
Proof. cbn [sset sget]. destruct (beq_bytes_spec k k); congruence. Qed.
Lemma sget_sset_ne k k' v m : k' <> k -> sget k (sset k' v m) = sget k m.
Proof. intros H. cbn [sset sget]. destruct (beq_bytes_spec k' k); congruence. Qed.

Notation at_ d i := (nth_error d (N.to_nat i)).

Record wf (d : fnames) : Prop := {
  wf_root : exists nd, at_ d 0 = Some nd /\ n_parent nd = 0 /\ n_name nd = [];
  wf_parent : forall i nd, 0 < i -> at_ d i = Some nd -> n_parent nd < i;
  wf_child : forall j nd p c, at_ d j = Some nd -> sget p (n_children nd) = c -> c <> 0 ->
     exists nc, at_ d c = Some nc /\ n_parent nc = j /\ n_name nc = p;
  wf_indexed : forall i nd pn, 0 < i -> at_ d i = Some nd -> at_ d (n_parent nd) = Some pn ->
     sget (n_name nd) (n_children pn) = i;
  wf_size : nlen d < 4294967296;
  wf_names : forall i nd, at_ d i = Some nd -> nlen (n_name nd) < 4294967296 }.

Lemma at_lt (d : fnames) i nd : at_ d i = Some nd -> i < nlen d.
Proof. intros H. unfold nlen. assert (N.to_nat i < length d)%nat by (apply nth_error_Some; congruence). lia. Qed.
Lemma at_some (d : fnames) i : i < nlen d -> exists nd, at_ d i = Some nd.
Proof.
  unfold nlen. intros H. destruct (at_ d i) eqn:E; [eauto|]. apply nth_error_None in E. lia.
Qed.

(** The names on the way from the root. *)
Inductive is_path (d : fnames) : N -> list bytes -> Prop :=
| IP0 : is_path d 0 []
| IPS i nd cs : 0 < i -> at_ d i = Some nd -> is_path d (n_parent nd) cs ->
    is_path d i (cs ++ [n_name nd]).

Lemma is_path_total d : wf d -> forall i, i < nlen d -> exists cs, is_path d i cs /\ (length cs <= N.to_nat i)%nat.
Proof.
  intros W i. induction i as [i IH] using (well_founded_induction N.lt_wf_0). intros Hi.
  destruct (N.eq_dec i 0) as [->|Hz]; [exists []; split; [constructor|cbn; lia]|].
  destruct (at_some d i Hi) as [nd Hnd].
  pose proof (wf_parent d W i nd ltac:(lia) Hnd) as Hp.
  destruct (IH (n_parent nd) Hp ltac:(lia)) as (cs & Hcs & Hl).
  exists (cs ++ [n_name nd]). split; [constructor; auto; lia|]. rewrite app_length. cbn [length]. lia.
Qed.
Lemma is_path_fun d i cs1 : is_path d i cs1 -> forall cs2, is_path d i cs2 -> cs1 = cs2.
Proof.
  induction 1 as [|i nd cs Hi Hnd Hcs IH]; intros cs2 H2; inversion H2; subst; try lia; auto.
  assert (nd0 = nd) by congruence. subst nd0. f_equal. apply IH. assumption.
Qed.
Lemma snoc_inj {A} (a b : list A) x y : a ++ [x] = b ++ [y] -> a = b /\ x = y.
Proof. apply app_inj_tail. Qed.
Lemma is_path_lt d i cs : wf d -> is_path d i cs -> i < nlen d.
Proof.
  intros W H. destruct H.
  - destruct (wf_root d W) as (nd & H & _). eapply at_lt; eauto.
  - eapply at_lt; eauto.
Qed.
Lemma wf_unique d i j ni nj : wf d -> 0 < i -> 0 < j -> at_ d i = Some ni -> at_ d j = Some nj ->
  n_parent ni = n_parent nj -> n_name ni = n_name nj -> i = j.
Proof.
  intros W Hi Hj Ei Ej Hp Hn.
  pose proof (wf_parent d W i ni Hi Ei) as Hpi. pose proof (at_lt _ _ _ Ei).
  destruct (at_some d (n_parent ni)) as [pn Epn]; [lia|].
  pose proof (wf_indexed d W i ni pn Hi Ei Epn) as I1.
  pose proof (wf_indexed d W j nj pn Hj Ej) as I2. rewrite <- Hp in I2. specialize (I2 Epn).
  rewrite <- Hn in I2. congruence.
Qed.
Lemma is_path_inj d (W : wf d) i cs : is_path d i cs -> forall j, is_path d j cs -> i = j.
Proof.
  induction 1 as [|i nd cs Hi Hnd Hcs IH]; intros j H2.
  - inversion H2 as [|? ? ? ? ? ? E]; subst; auto. destruct cs; discriminate.
  - remember (cs ++ [n_name nd]) as q eqn:Eq. destruct H2 as [|j nj cs2 Hj Hnj Hcs2].
    + destruct cs; discriminate.
    + apply snoc_inj in Eq. destruct Eq as [-> En].
      apply (wf_unique d i j nd nj W); auto.
Qed.

(** * What the path of an id depends on *)
Definition skel (d : fnames) : list (N * bytes) := map (fun nd => (n_parent nd, n_name nd)) d.
Lemma skel_length d : length (skel d) = length d.
Proof. apply map_length. Qed.
Lemma skel_at d i : nth_error (skel d) i = option_map (fun nd => (n_parent nd, n_name nd)) (nth_error d i).
Proof. apply nth_error_map. Qed.

Lemma abs_walk_skel fuel : forall d d' v, skel d = skel d' -> abs_walk fuel d v = abs_walk fuel d' v.
Proof.
  induction fuel as [|k IH]; intros d d' v E; [reflexivity|]. cbn [abs_walk].
  pose proof (skel_at d (N.to_nat v)) as S1. pose proof (skel_at d' (N.to_nat v)) as S2.
  rewrite E in S1. rewrite S1 in S2.
  destruct (at_ d v) as [nd|], (at_ d' v) as [nd'|]; cbn [option_map] in S2; try discriminate; auto.
  inv S2. destruct (v =? 0); [reflexivity|]. rewrite H0, H1, (IH d d') by assumption. reflexivity.
Qed.
Lemma fn_abs_skel d d' v : skel d = skel d' -> fn_abs d v = fn_abs d' v.
Proof.
  intros E. unfold fn_abs. rewrite (abs_walk_skel _ d d') by assumption.
  replace (length d') with (length d); [reflexivity|].
  rewrite <- (skel_length d), <- (skel_length d'), E. reflexivity.
Qed.

Lemma abs_walk_spec d i cs : is_path d i cs -> wf d -> forall fuel, (length cs < fuel)%nat ->
  abs_walk fuel d i = Ok (rev cs).
Proof.
  intros H W. induction H as [|i nd cs Hi Hnd Hcs IH]; intros fuel Hf.
  - destruct fuel as [|k]; [lia|]. cbn [abs_walk]. destruct (wf_root d W) as (nd & E & _).
    rewrite E. reflexivity.
  - destruct fuel as [|k]; [lia|]. cbn [abs_walk]. rewrite Hnd.
    destruct (N.eqb_spec i 0); [lia|]. rewrite app_length in Hf. cbn [length] in Hf.
    rewrite IH by lia. cbn [bind]. rewrite rev_app_distr. reflexivity.
Qed.
Lemma fn_abs_path d i cs : wf d -> is_path d i cs -> fn_abs d i = Ok (47 :: join_sep cs).
Proof.
  intros W H. unfold fn_abs.
  destruct (is_path_total d W i (is_path_lt _ _ _ W H)) as (cs2 & H2 & L).
  pose proof (is_path_fun _ _ _ H _ H2). subst cs2.
  pose proof (is_path_lt _ _ _ W H) as Hl. unfold nlen in Hl.
  rewrite (abs_walk_spec _ _ _ H W) by lia. cbn [bind].
  rewrite reverse_parts_rev, rev_involutive. reflexivity.
Qed.

Lemma join_slashed c cs : sep :: join_sep (c :: cs) = slashed (c :: cs).
Proof.
  revert c. induction cs as [|c2 cs IH]; intros c.
  - cbn [join_sep slashed]. rewrite app_nil_r. reflexivity.
  - change (slashed (c :: c2 :: cs)) with (47 :: c ++ slashed (c2 :: cs)).
    rewrite <- (IH c2). reflexivity.
Qed.

(** The parts added for a path, and the string shown for them. *)
Definition parts_of (cs : list bytes) : list bytes := match cs with [] => [[]] | _ => cs end.
Lemma path_parts_show cs : comps_ok cs -> path_parts (show_abs cs) = parts_of cs.
Proof.
  intros H. unfold path_parts. rewrite split_sep_pieces. destruct cs as [|c cs]; [reflexivity|].
  unfold show_abs. rewrite pieces_slashed by assumption. reflexivity.
Qed.
Lemma parts_show cs : 47 :: join_sep (parts_of cs) = show_abs cs.
Proof. destruct cs as [|c cs]; [reflexivity|]. cbn [parts_of show_abs]. apply join_slashed. Qed.
Lemma parts_of_inj a b : comps_ok a -> comps_ok b -> parts_of a = parts_of b -> a = b.
Proof.
  intros Ha Hb. destruct a as [|x a], b as [|y b]; cbn [parts_of]; intros E; auto.
  - inv E. inv Hb. destruct H1; congruence.
  - inv E. inv Ha. destruct H1; congruence.
Qed.

(** * Adding *)
Definition extends (d d' : fnames) : Prop := exists t, skel d' = skel d ++ t.
Lemma extends_refl d : extends d d.
Proof. exists []. rewrite app_nil_r. reflexivity. Qed.
Lemma extends_trans a b c : extends a b -> extends b c -> extends a c.
Proof. intros [t1 E1] [t2 E2]. exists (t1 ++ t2). rewrite E2, E1, app_assoc. reflexivity. Qed.
Lemma extends_at d d' i nd : extends d d' -> at_ d i = Some nd ->
  exists nd', at_ d' i = Some nd' /\ n_parent nd' = n_parent nd /\ n_name nd' = n_name nd.
Proof.
  intros [t E] H. pose proof (skel_at d' (N.to_nat i)) as S. rewrite E in S.
  rewrite nth_error_app1 in S by (rewrite skel_length; apply nth_error_Some; congruence).
  rewrite skel_at, H in S. cbn [option_map] in S.
  destruct (at_ d' i) as [nd'|]; cbn [option_map] in S; [|discriminate].
  inv S. exists nd'. auto.
Qed.
Lemma extends_path d d' i cs : extends d d' -> is_path d i cs -> is_path d' i cs.
Proof.
  intros E H. induction H as [|i nd cs Hi Hnd Hcs IH]; [constructor|].
  destruct (extends_at _ _ _ _ E Hnd) as (nd' & H1 & H2 & H3). rewrite <- H3.
  constructor; auto. rewrite H2. exact IH.
Qed.

Lemma add_new_wf d parent nd p :
  wf d -> at_ d parent = Some nd -> sget p (n_children nd) = 0 ->
  nlen d + 1 < 4294967296 -> nlen p < 4294967296 ->
  let d' := upd (N.to_nat parent) (MkFname (n_parent nd) (n_name nd) (sset p (nlen d) (n_children nd))) d
            ++ [MkFname parent p []] in
  wf d' /\ skel d' = skel d ++ [(parent, p)].
Proof.
  intros W Hnd Hz Hs Hp d'.
  pose proof (at_lt _ _ _ Hnd) as Hpl.
  assert (length d' = S (length d)) as L by (unfold d'; rewrite app_length, upd_length; cbn [length]; lia).
  assert (forall i, i < nlen d -> i <> parent -> at_ d' i = at_ d i) as Aother.
  { intros i Hi Hne. unfold d', nlen in *. rewrite nth_error_app1 by (rewrite upd_length; lia).
    apply nth_error_upd_ne. lia. }
  assert (at_ d' parent = Some (MkFname (n_parent nd) (n_name nd) (sset p (nlen d) (n_children nd)))) as Aparent.
  { unfold d', nlen in *. rewrite nth_error_app1 by (rewrite upd_length; lia). apply nth_error_upd_eq. lia. }
  assert (at_ d' (nlen d) = Some (MkFname parent p [])) as Anew.
  { unfold d', nlen in *. rewrite nth_error_app2 by (rewrite upd_length; lia).
    rewrite upd_length, Nnat.Nat2N.id, Nat.sub_diag. reflexivity. }
  (* nodes of d' *)
  assert (forall i x, at_ d' i = Some x ->
    (i < nlen d /\ exists x0, at_ d i = Some x0 /\ n_parent x = n_parent x0 /\ n_name x = n_name x0 /\
       (forall q, (i, q) <> (parent, p) -> sget q (n_children x) = sget q (n_children x0)) /\
       (i = parent -> sget p (n_children x) = nlen d))
    \/ (i = nlen d /\ x = MkFname parent p [])) as Nodes.
  { intros i x Hx. pose proof (at_lt _ _ _ Hx) as Hi. unfold nlen in Hi. rewrite L in Hi.
    destruct (N.eq_dec i (nlen d)) as [->|Hn].
    - right. split; [reflexivity|]. congruence.
    - left. assert (i < nlen d) as Hi2 by (unfold nlen in *; lia). split; [exact Hi2|].
      destruct (N.eq_dec i parent) as [->|Hne].
      + exists nd. rewrite Aparent in Hx. inv Hx. cbn [n_parent n_name n_children].
        repeat split; auto.
        * intros q Hq. apply sget_sset_ne. intros ->. apply Hq. reflexivity.
        * intros _. apply sget_sset_eq.
      + rewrite Aother in Hx by assumption. exists x. repeat split; auto. intros; contradiction. }
  assert (forall i x0, at_ d i = Some x0 -> exists x, at_ d' i = Some x /\ n_parent x = n_parent x0 /\ n_name x = n_name x0) as Back.
  { intros i x0 Hx. destruct (N.eq_dec i parent) as [->|Hne].
    - rewrite Hnd in Hx. inv Hx. eexists. split; [exact Aparent|]. auto.
    - exists x0. rewrite Aother by (auto; eapply at_lt; eauto). auto. }
  split.
  - constructor.
    + destruct (wf_root d W) as (r & Hr & R1 & R2). destruct (Back _ _ Hr) as (x & Hx & X1 & X2).
      exists x. rewrite X1, X2. auto.
    + intros i x Hi Hx. destruct (Nodes i x Hx) as [(Hl & x0 & H0 & E1 & _)|[-> ->]].
      * rewrite E1. apply (wf_parent d W); auto.
      * cbn [n_parent]. exact Hpl.
    + intros j x q c Hx Hg Hc. destruct (Nodes j x Hx) as [(Hl & x0 & H0 & E1 & E2 & E3 & E4)|[-> ->]].
      * destruct (N.eq_dec j parent) as [->|Hne].
        -- destruct (list_eq_dec N.eq_dec q p) as [->|Hq].
           ++ rewrite E4 in Hg by reflexivity. subst c. exists (MkFname parent p []). auto.
           ++ rewrite E3 in Hg by congruence.
              destruct (wf_child d W _ _ _ _ H0 Hg Hc) as (nc & C1 & C2 & C3).
              destruct (Back _ _ C1) as (x1 & B1 & B2 & B3). exists x1. rewrite B2, B3. auto.
        -- rewrite E3 in Hg by congruence.
           destruct (wf_child d W _ _ _ _ H0 Hg Hc) as (nc & C1 & C2 & C3).
           destruct (Back _ _ C1) as (x1 & B1 & B2 & B3). exists x1. rewrite B2, B3. auto.
      * cbn [n_children sget] in Hg. congruence.
    + intros i x pn Hi Hx Hpn. destruct (Nodes i x Hx) as [(Hl & x0 & H0 & E1 & E2 & _)|[-> ->]].
      * rewrite E1 in Hpn. rewrite E2.
        assert (n_parent x0 < i) as Hpi by (apply (wf_parent d W); auto).
        destruct (Nodes _ _ Hpn) as [(Hl2 & y0 & G0 & _ & _ & G3 & _)|[Ebad _]]; [|lia].
        rewrite G3; [apply (wf_indexed d W); auto|].
        intros Eq. inversion Eq as [[Eq1 Eq2]].
        (* then i would already be a child of parent under p *)
        pose proof (wf_indexed d W i x0 y0 Hi H0 G0) as I. rewrite Eq1 in G0.
        assert (y0 = nd) as Ey by congruence. rewrite Ey, Eq2, Hz in I. lia.
      * cbn [n_parent n_name] in *. rewrite Aparent in Hpn. inv Hpn. cbn [n_children]. apply sget_sset_eq.
    + unfold nlen in *. rewrite L. lia.
    + intros i x Hx. destruct (Nodes i x Hx) as [(Hl & x0 & H0 & E1 & E2 & _)|[-> ->]].
      * rewrite E2. eapply (wf_names d W); eauto.
      * exact Hp.
  - unfold skel, d'. rewrite map_app. cbn [map n_parent n_name]. f_equal.
    apply nth_error_ext'. intros i. rewrite !nth_error_map, nth_error_upd.
    destruct (Nat.eqb_spec (N.to_nat parent) i) as [<-|]; [|reflexivity]. rewrite Hnd. reflexivity.
Qed.

Lemma add_parts_spec parts : forall d parent cs,
  wf d -> is_path d parent cs ->
  nlen d + nlen parts < 4294967296 -> Forall (fun p => nlen p < 4294967296) parts ->
  exists d' id, add_parts d parent parts = Ok (d', id) /\ wf d' /\ extends d d' /\
    is_path d' id (cs ++ parts) /\ (length d' <= length d + length parts)%nat.
Proof.
  induction parts as [|p parts IH]; intros d parent cs W Hcs Hs Hp.
  - exists d, parent. cbn [add_parts]. rewrite app_nil_r. split; [reflexivity|].
    split; [exact W|]. split; [apply extends_refl|]. split; [exact Hcs|]. lia.
  - cbn [add_parts]. pose proof (is_path_lt _ _ _ W Hcs) as Hl. destruct (at_some _ _ Hl) as [nd Hnd].
    rewrite Hnd. inv Hp.
    assert (cs ++ p :: parts = (cs ++ [p]) ++ parts) as -> by (rewrite <- app_assoc; reflexivity).
    unfold nlen in Hs. cbn [length] in Hs.
    destruct (N.eqb_spec (sget p (n_children nd)) 0) as [Hz|Hz].
    + destruct (add_new_wf d parent nd p W Hnd Hz) as [W' S']; [unfold nlen; lia|assumption|].
      assert (u32 (nlen d) = nlen d) as -> by (unfold u32, nlen in *; rewrite N.mod_small by lia; reflexivity).
      set (d1 := upd _ _ d ++ _) in *.
      assert (length d1 = S (length d)) as L1.
      { rewrite <- (skel_length d1), S', app_length, skel_length. cbn [length]. lia. }
      assert (extends d d1) as X by (eexists; exact S').
      assert (at_ d1 (nlen d) = Some (MkFname parent p [])) as Anew.
      { unfold d1, nlen in *. rewrite nth_error_app2 by (rewrite upd_length; lia).
        rewrite upd_length, Nnat.Nat2N.id, Nat.sub_diag. reflexivity. }
      destruct (IH d1 (nlen d) (cs ++ [p]) W') as (d' & id & E & Wd & Xd & Pd & Ld).
      * change p with (n_name (MkFname parent p [])). constructor; auto.
        -- lia.
        -- cbn [n_parent]. eapply extends_path; eauto.
      * unfold nlen in *. rewrite L1. lia.
      * assumption.
      * exists d', id. split; [exact E|]. split; [exact Wd|]. split; [eapply extends_trans; eauto|].
        split; [exact Pd|]. rewrite L1 in Ld. cbn [length]. lia.
    + destruct (wf_child d W _ _ _ _ Hnd eq_refl Hz) as (nc & C1 & C2 & C3).
      destruct (IH d (sget p (n_children nd)) (cs ++ [p]) W) as (d' & id & E & Wd & Xd & Pd & Ld).
      * pose proof (IPS d (sget p (n_children nd)) nc cs ltac:(lia) C1) as Q. rewrite C2, C3 in Q. exact (Q Hcs).
      * unfold nlen in *. lia.
      * assumption.
      * exists d', id. split; [exact E|]. split; [exact Wd|]. split; [exact Xd|].
        split; [exact Pd|]. cbn [length]. lia.
Qed.

(** Adding a path that is already there changes nothing. *)
Lemma is_path_app_inv d cs1 : forall cs2 i, is_path d i (cs1 ++ cs2) ->
  exists j, is_path d j cs1.
Proof.
  intros cs2. induction cs2 as [|c cs2 IH] using rev_ind; intros i H.
  - rewrite app_nil_r in H. eauto.
  - rewrite app_assoc in H. remember ((cs1 ++ cs2) ++ [c]) as q eqn:Eq.
    destruct H as [|i nd cs Hi Hnd Hcs]; [destruct (cs1 ++ cs2); discriminate|].
    apply snoc_inj in Eq. destruct Eq as [-> _]. eapply IH; eauto.
Qed.
Lemma add_parts_known parts : forall d parent cs id,
  wf d -> is_path d parent cs -> is_path d id (cs ++ parts) -> add_parts d parent parts = Ok (d, id).
Proof.
  induction parts as [|p parts IH]; intros d parent cs id W Hcs Hid.
  - rewrite app_nil_r in Hid. cbn [add_parts]. rewrite (is_path_inj d W _ _ Hcs _ Hid). reflexivity.
  - cbn [add_parts]. pose proof (is_path_lt _ _ _ W Hcs) as Hl. destruct (at_some _ _ Hl) as [nd Hnd].
    rewrite Hnd. replace (cs ++ p :: parts) with ((cs ++ [p]) ++ parts) in Hid by (rewrite <- app_assoc; reflexivity).
    destruct (is_path_app_inv _ _ _ _ Hid) as [j Hj].
    assert (0 < j /\ exists nj, at_ d j = Some nj /\ n_parent nj = parent /\ n_name nj = p) as (Hj0 & nj & J1 & J2 & J3).
    { remember (cs ++ [p]) as q eqn:Eq. destruct Hj as [|j nj cs2 Hj0 Hnj Hcs2]; [destruct cs; discriminate|].
      apply snoc_inj in Eq. destruct Eq as [-> <-]. split; [assumption|]. exists nj. repeat split; auto.
      apply (is_path_inj d W _ _ Hcs2 _ Hcs). }
    assert (sget p (n_children nd) = j) as ->.
    { rewrite <- J3. apply (wf_indexed d W j nj nd); auto. rewrite J2. exact Hnd. }
    destruct (N.eqb_spec j 0); [lia|]. eapply IH; eauto.
Qed.

(** * Equivalent trees behave alike *)
Lemma skel_sget d d' j nd nd' p : wf d -> wf d' -> skel d = skel d' ->
  at_ d j = Some nd -> at_ d' j = Some nd' -> sget p (n_children nd) = sget p (n_children nd').
Proof.
  intros W W' E Hnd Hnd'.
  assert (forall (d d' : fnames) i x, skel d = skel d' -> at_ d i = Some x ->
    exists x', at_ d' i = Some x' /\ n_parent x' = n_parent x /\ n_name x' = n_name x) as T.
  { intros a b i x Hab Hx. apply (extends_at a b); auto. exists []. rewrite app_nil_r. auto. }
  destruct (N.eq_dec (sget p (n_children nd)) 0) as [Hz|Hz].
  - destruct (N.eq_dec (sget p (n_children nd')) 0) as [Hz'|Hz']; [congruence|].
    destruct (wf_child d' W' _ _ _ _ Hnd' eq_refl Hz') as (nc & C1 & C2 & C3).
    destruct (T d' d _ _ (eq_sym E) C1) as (x & X1 & X2 & X3).
    pose proof (wf_indexed d W (sget p (n_children nd')) x nd ltac:(lia) X1) as I.
    rewrite X2, X3, C2, C3 in I. apply I. exact Hnd.
  - destruct (wf_child d W _ _ _ _ Hnd eq_refl Hz) as (nc & C1 & C2 & C3).
    destruct (T d d' _ _ E C1) as (x & X1 & X2 & X3).
    pose proof (wf_indexed d' W' (sget p (n_children nd)) x nd' ltac:(lia) X1) as I.
    rewrite X2, X3, C2, C3 in I. symmetry. apply I. exact Hnd'.
Qed.

Lemma add_parts_equiv parts : forall d d' parent cs e id,
  wf d -> wf d' -> skel d = skel d' -> is_path d parent cs ->
  nlen d + nlen parts < 4294967296 -> Forall (fun p => nlen p < 4294967296) parts ->
  add_parts d parent parts = Ok (e, id) ->
  exists e', add_parts d' parent parts = Ok (e', id) /\ skel e = skel e' /\ wf e /\ wf e'.
Proof.
  induction parts as [|p parts IH]; intros d d' parent cs e id W W' E Hcs Hs Hp He.
  - cbn [add_parts] in *. inv He. exists d'. auto.
  - cbn [add_parts] in *. pose proof (is_path_lt _ _ _ W Hcs) as Hl. destruct (at_some _ _ Hl) as [nd Hnd].
    rewrite Hnd in He.
    assert (length d' = length d) as L by (rewrite <- (skel_length d), E, skel_length; reflexivity).
    destruct (at_some d' parent) as [nd' Hnd']; [unfold nlen in *; lia|]. rewrite Hnd'.
    rewrite (skel_sget d d' parent nd nd' p W W' E Hnd Hnd') in *.
    pose proof (skel_sget d d' parent nd nd' p W W' E Hnd Hnd') as G.
    unfold nlen in Hs. cbn [length] in Hs. inv Hp.
    destruct (N.eqb_spec (sget p (n_children nd')) 0) as [Hz|Hz].
    + rewrite Hz in G.
      destruct (add_new_wf d parent nd p W Hnd G) as [W1 S1]; [unfold nlen; lia|assumption|].
      destruct (add_new_wf d' parent nd' p W' Hnd' Hz) as [W2 S2]; [unfold nlen; lia|assumption|].
      assert (u32 (nlen d) = nlen d) as U by (unfold u32, nlen in *; rewrite N.mod_small by lia; reflexivity).
      assert (u32 (nlen d') = nlen d) as U' by (unfold u32, nlen in *; rewrite N.mod_small, L by lia; reflexivity).
      assert (nlen d' = nlen d) as U2 by (unfold nlen; rewrite L; reflexivity).
      rewrite U in He. rewrite U'. rewrite U2 in W2, S2.
      assert (at_ (upd (N.to_nat parent) (MkFname (n_parent nd) (n_name nd) (sset p (nlen d) (n_children nd))) d
            ++ [MkFname parent p []]) (nlen d) = Some (MkFname parent p [])) as Anew.
      { unfold nlen in *. rewrite nth_error_app2 by (rewrite upd_length; lia).
        rewrite upd_length, Nnat.Nat2N.id, Nat.sub_diag. reflexivity. }
      refine (IH _ _ _ (cs ++ [p]) e id W1 W2 _ _ _ H2 He).
      * congruence.
      * eapply (IPS _ _ (MkFname parent p [])); [|exact Anew|]; [lia|]. cbn [n_parent]. eapply extends_path; [|exact Hcs]. eexists; exact S1.
      * unfold nlen. rewrite app_length, upd_length. cbn [length]. lia.
    + destruct (wf_child d' W' _ _ _ _ Hnd' eq_refl Hz) as (nc & C1 & C2 & C3).
      assert (sget p (n_children nd) <> 0) as Hz2 by congruence.
      destruct (wf_child d W _ _ _ _ Hnd eq_refl Hz2) as (nc2 & D1 & D2 & D3). rewrite G in D1.
      refine (IH _ _ _ (cs ++ [n_name nc2]) e id W W' E _ _ H2 He).
      * eapply IPS; [|exact D1|]; [lia|]. rewrite D2. exact Hcs.
      * unfold nlen. lia.
Qed.

(** * Writing and reading back *)
Lemma read_uvarint32_put x rest : x < 4294967296 -> read_uvarint32 (put_uvarint x ++ rest) = Ok (x, rest).
Proof.
  intros H. unfold read_uvarint32. rewrite read_uvarint_put by lia. cbn [bind].
  destruct (N.leb_spec 4294967296 x); [lia|reflexivity].
Qed.
Lemma read_n_app name rest : read_n (nlen name) (name ++ rest) = Ok (name, rest).
Proof.
  unfold read_n, nlen. destruct (N.leb_spec (N.of_nat (length name)) (N.of_nat (length (name ++ rest))));
    [|rewrite app_length in *; lia].
  rewrite Nnat.Nat2N.id, firstn_app_exact, skipn_app_exact by reflexivity. reflexivity.
Qed.

(** After reading [i] entries of [d]. *)
Record loaded (d : fnames) (i : nat) (e : fnames) : Prop := {
  ld_len : length e = length d;
  ld_done : forall j x, (j < i)%nat -> nth_error e j = Some x ->
      exists y, nth_error d j = Some y /\ n_parent x = n_parent y /\ n_name x = n_name y;
  ld_child : forall j x p, nth_error e j = Some x -> sget p (n_children x) <> 0 ->
      (N.to_nat (sget p (n_children x)) < i)%nat /\
      exists y, at_ d (sget p (n_children x)) = Some y /\ n_parent y = N.of_nat j /\ n_name y = p;
  ld_index : forall c y j x, 0 < c -> (N.to_nat c < i)%nat -> at_ d c = Some y ->
      n_parent y = N.of_nat j -> nth_error e j = Some x -> sget (n_name y) (n_children x) = c }.

Lemma load_step d i e nd x pn : wf d -> loaded d i e ->
  nth_error d i = Some nd -> nth_error e i = Some x ->
  let e1 := upd i (MkFname (n_parent nd) (n_name nd) (n_children x)) e in
  nth_error e1 (N.to_nat (n_parent nd)) = Some pn ->
  loaded d (S i) (upd (N.to_nat (n_parent nd))
     (MkFname (n_parent pn) (n_name pn) (sset (n_name nd) (N.of_nat i) (n_children pn))) e1).
Proof.
  intros W [L D C I] Hnd Hx e1 Hpn.
  assert (nth_error e1 i = Some (MkFname (n_parent nd) (n_name nd) (n_children x))) as E1i.
  { apply nth_error_upd_eq. apply nth_error_Some. congruence. }
  set (pp := N.to_nat (n_parent nd)) in *.
  (* each node of e1 against e *)
  assert (forall j y, nth_error e1 j = Some y -> exists y0, nth_error e j = Some y0 /\
     n_children y = n_children y0 /\ (j <> i -> y = y0)) as N1.
  { intros j y Hy. destruct (Nat.eq_dec j i) as [->|Hne].
    - rewrite E1i in Hy. inv Hy. exists x. repeat split; auto. intros; contradiction.
    - unfold e1 in Hy. rewrite nth_error_upd_ne in Hy by auto. exists y. auto. }
  set (e2 := upd pp _ e1).
  assert (forall j y, nth_error e2 j = Some y -> exists y1, nth_error e1 j = Some y1 /\
     n_parent y = n_parent y1 /\ n_name y = n_name y1 /\
     n_children y = if (j =? pp)%nat then sset (n_name nd) (N.of_nat i) (n_children y1) else n_children y1) as N2.
  { intros j y Hy. unfold e2 in Hy. rewrite nth_error_upd in Hy.
    destruct (Nat.eqb_spec pp j) as [<-|Hne].
    - rewrite Hpn in Hy. inv Hy. exists pn. rewrite Nat.eqb_refl. auto.
    - exists y. destruct (Nat.eqb_spec j pp); [congruence|]. auto. }
  constructor.
  - unfold e2, e1. rewrite !upd_length. exact L.
  - intros j y Hj Hy. destruct (N2 j y Hy) as (y1 & Y1 & P1 & P2 & _). rewrite P1, P2.
    destruct (Nat.eq_dec j i) as [->|Hne].
    + rewrite E1i in Y1. inv Y1. exists nd. auto.
    + destruct (N1 j y1 Y1) as (y0 & Y0 & _ & Q). rewrite (Q Hne). apply D; [lia|exact Y0].
  - intros j y p Hy Hg. destruct (N2 j y Hy) as (y1 & Y1 & _ & _ & Hch). rewrite Hch in Hg |- *.
    destruct (N1 j y1 Y1) as (y0 & Y0 & Hc0 & _). rewrite Hc0 in *.
    assert (sget p (n_children y0) <> 0 -> (N.to_nat (sget p (n_children y0)) < S i)%nat /\
      exists z, at_ d (sget p (n_children y0)) = Some z /\ n_parent z = N.of_nat j /\ n_name z = p) as Old.
    { intros H. destruct (C j y0 p Y0 H) as [C1 C2]. split; [lia|exact C2]. }
    destruct (Nat.eqb_spec j pp) as [->|Hne]; [|exact (Old Hg)].
    destruct (list_eq_dec N.eq_dec (n_name nd) p) as [<-|Hnp].
    + rewrite sget_sset_eq in Hg |- *. split; [lia|]. exists nd. rewrite Nnat.Nat2N.id.
      repeat split; auto. unfold pp. rewrite Nnat.N2Nat.id. reflexivity.
    + rewrite sget_sset_ne in Hg |- * by exact Hnp. exact (Old Hg).
  - intros c z j y Hc0 Hci Hz Hzp Hy. destruct (N2 j y Hy) as (y1 & Y1 & _ & _ & Hch). rewrite Hch.
    destruct (N1 j y1 Y1) as (y0 & Y0 & Hc1 & _). rewrite Hc1 in *.
    destruct (Nat.eq_dec (N.to_nat c) i) as [Hi|Hi].
    + assert (z = nd) by congruence. subst z.
      destruct (Nat.eqb_spec j pp) as [_|Hne]; [|unfold pp in Hne; lia].
      rewrite sget_sset_eq. lia.
    + assert (sget (n_name z) (n_children y0) = c) as Old by (eapply I; eauto; lia).
      destruct (Nat.eqb_spec j pp) as [Hj|Hne]; [|exact Old].
      destruct (list_eq_dec N.eq_dec (n_name nd) (n_name z)) as [Hn|Hn].
      * (* a second node with this parent and name: none but the root, whose entry is 0 *)
        destruct (Nat.eq_dec i 0) as [->|Hi0].
        -- destruct (wf_root d W) as (r & R1 & R2 & R3). cbn [N.to_nat] in R1.
           change (N.to_nat 0) with 0%nat in R1. assert (r = nd) by congruence. subst r. lia.
        -- exfalso. apply Hi.
           assert (c = N.of_nat i) as Ec; [|lia].
           apply (wf_unique d c (N.of_nat i) z nd W Hc0 ltac:(lia) Hz).
           ++ rewrite Nnat.Nat2N.id. exact Hnd.
           ++ rewrite Hzp, Hj. unfold pp. rewrite Nnat.N2Nat.id. reflexivity.
           ++ congruence.
      * rewrite sget_sset_ne by exact Hn. exact Old.
Qed.

Lemma read_loop_spec d : wf d -> forall todo i e, (i + todo = length d)%nat -> loaded d i e ->
  exists e', read_fnames_loop todo i e (concat (concat (map fname_writes (skipn i d)))) = Ok e' /\
    loaded d (length d) e'.
Proof.
  intros W. induction todo as [|k IH]; intros i e Hi Hl.
  - exists e. cbn [read_fnames_loop]. replace (length d) with i by lia. auto.
  - cbn [read_fnames_loop].
    destruct (nth_error d i) as [nd|] eqn:Hnd; [|apply nth_error_None in Hnd; lia].
    assert (skipn i d = nd :: skipn (S i) d) as Hsk.
    { clear - Hnd. revert d Hnd. induction i as [|i IHi]; intros [|y d] H; try discriminate.
      - inv H. reflexivity.
      - apply (IHi d H). }
    rewrite Hsk. cbn [map concat]. unfold fname_writes at 1. cbn [app concat].
    assert (nlen (n_name nd) < 4294967296) as Hn by (apply (wf_names d W (N.of_nat i)); rewrite Nnat.Nat2N.id; exact Hnd).
    pose proof (wf_size d W) as Hs. unfold nlen in Hs.
    assert (n_parent nd < 4294967296 /\ (N.to_nat (n_parent nd) < length d)%nat) as [Hp1 Hp2].
    { destruct (Nat.eq_dec i 0) as [->|Hi0].
      - destruct (wf_root d W) as (r & R1 & R2 & R3). change (N.to_nat 0) with 0%nat in R1.
        assert (r = nd) by congruence. subst r. lia.
      - pose proof (wf_parent d W (N.of_nat i) nd ltac:(lia)) as P. rewrite Nnat.Nat2N.id in P.
        specialize (P Hnd). lia. }
    assert (u32 (nlen (n_name nd)) = nlen (n_name nd)) as -> by (unfold u32; apply N.mod_small; exact Hn).
    rewrite read_uvarint32_put by exact Hn. cbn [bind].
    rewrite read_n_app. cbn [bind]. rewrite read_uvarint32_put by exact Hp1. cbn [bind].
    pose proof (ld_len _ _ _ Hl) as Le.
    destruct (nth_error e i) as [x|] eqn:Hx; [|apply nth_error_None in Hx; lia].
    destruct (nth_error (upd i (MkFname (n_parent nd) (n_name nd) (n_children x)) e) (N.to_nat (n_parent nd)))
      as [pn|] eqn:Hpn; [|apply nth_error_None in Hpn; rewrite upd_length in Hpn; lia].
    assert (u32 (N.of_nat i) = N.of_nat i) as -> by (unfold u32; apply N.mod_small; lia).
    apply IH; [lia|]. apply load_step with (x := x); assumption.
Qed.

Lemma loaded_init d : loaded d 0 (repeat (MkFname 0 [] []) (length d)).
Proof.
  constructor.
  - apply repeat_length.
  - intros; lia.
  - intros j x p H Hg. apply nth_error_In, repeat_spec in H. subst x. cbn [n_children sget] in Hg. congruence.
  - intros; lia.
Qed.

Lemma loaded_wf d e : wf d -> loaded d (length d) e -> wf e /\ skel e = skel d.
Proof.
  intros W [L D C I].
  assert (skel e = skel d) as S.
  { apply nth_error_ext'. intros i. rewrite !skel_at. destruct (nth_error e i) as [x|] eqn:Hx.
    - destruct (D i x) as (y & Y1 & Y2 & Y3); auto.
      + rewrite <- L. apply nth_error_Some. congruence.
      + rewrite Y1. cbn [option_map]. congruence.
    - apply nth_error_None in Hx. rewrite L in Hx. apply nth_error_None in Hx. rewrite Hx. reflexivity. }
  assert (forall i x, at_ e i = Some x -> exists y, at_ d i = Some y /\ n_parent x = n_parent y /\ n_name x = n_name y) as T.
  { intros i x Hx. apply D; auto. rewrite <- L. apply nth_error_Some. congruence. }
  assert (forall i y, at_ d i = Some y -> exists x, at_ e i = Some x /\ n_parent x = n_parent y /\ n_name x = n_name y) as T2.
  { intros i y Hy. destruct (at_ e i) as [x|] eqn:Hx.
    - exists x. destruct (T i x Hx) as (y' & Y1 & Y2 & Y3). assert (y' = y) by congruence. subst y'. auto.
    - apply nth_error_None in Hx. assert (N.to_nat i < length d)%nat by (apply nth_error_Some; congruence). lia. }
  split; [|exact S]. constructor.
  - destruct (wf_root d W) as (r & R1 & R2 & R3). destruct (T2 _ _ R1) as (x & X1 & X2 & X3).
    exists x. rewrite X2, X3. auto.
  - intros i x Hi Hx. destruct (T i x Hx) as (y & Y1 & Y2 & Y3). rewrite Y2. apply (wf_parent d W); auto.
  - intros j x p c Hx Hg Hc. rewrite <- Hg in Hc. destruct (C _ x p Hx Hc) as (C1 & y & C2 & C3 & C4).
    rewrite Hg in C2. destruct (T2 _ _ C2) as (z & Z1 & Z2 & Z3). exists z. rewrite Z2, Z3, C3, C4.
    rewrite Nnat.N2Nat.id. auto.
  - intros i x pn Hi Hx Hpn. destruct (T i x Hx) as (y & Y1 & Y2 & Y3). rewrite Y3.
    apply (I i y (N.to_nat (n_parent x)) pn); auto.
    + apply nth_error_Some. congruence.
    + rewrite Nnat.N2Nat.id. congruence.
  - pose proof (wf_size d W). unfold nlen in *. rewrite L. assumption.
  - intros i x Hx. destruct (T i x Hx) as (y & Y1 & Y2 & Y3). rewrite Y3. apply (wf_names d W i); auto.
Qed.

Lemma reload_spec d : wf d -> exists e, read_fnames (fn_write d) = Ok e /\ wf e /\ skel e = skel d.
Proof.
  intros W. pose proof (wf_size d W) as Hs.
  unfold read_fnames, fn_write, fn_writes. cbn [concat].
  assert (u32 (nlen d) = nlen d) as -> by (unfold u32; apply N.mod_small; exact Hs).
  rewrite read_uvarint32_put by exact Hs. cbn [bind]. unfold nlen. rewrite Nnat.Nat2N.id.
  destruct (read_loop_spec d W (length d) 0 _ eq_refl (loaded_init d)) as (e & E & Hl).
  exists e. split; [exact E|]. apply loaded_wf; assumption.
Qed.

(** * Histories *)
Lemma new_wf : wf new_fnames.
Proof.
  constructor.
  - eexists. repeat split.
  - intros i nd Hi H. apply at_lt in H. change (nlen new_fnames) with 1 in H. lia.
  - intros j nd p c H. pose proof (at_lt _ _ _ H) as Hl. change (nlen new_fnames) with 1 in Hl. assert (j = 0) by lia. subst j.
    cbn in H. inv H. cbn [n_children sget]. congruence.
  - intros i nd pn Hi H. apply at_lt in H. change (nlen new_fnames) with 1 in H. lia.
  - change (nlen new_fnames) with 1. lia.
  - intros i nd H. pose proof (at_lt _ _ _ H) as Hl. change (nlen new_fnames) with 1 in Hl. assert (i = 0) by lia. subst i.
    cbn in H. inv H. change (nlen (n_name (MkFname 0 [] []))) with 0. lia.
Qed.

(** An upper bound of the room a history needs: one node per character of the cleaned paths. *)
Definition room1 (o : fn_op) : N :=
  match o with FnAdd cwd path => nlen (show_abs (spec_abs cwd path)) | FnReload => 0 end.
Definition room (ops : list fn_op) : N := fold_right (fun o n => room1 o + n) 0 ops.
(** Every addition happens in some absolute working directory. *)
Definition ops_ok (ops : list fn_op) : Prop :=
  forall cwd path, In (FnAdd cwd path) ops -> rooted cwd.
Definition added (ops : list fn_op) : list (bytes * bytes) :=
  concat (map (fun o => match o with FnAdd c p => [(c, p)] | FnReload => [] end) ops).

Lemma slashed_length cs : nlen cs <= nlen (slashed cs) /\ Forall (fun p => nlen p < nlen (slashed cs)) cs.
Proof.
  induction cs as [|c cs [IH1 IH2]]; [split; [reflexivity|constructor]|]. unfold nlen in *. cbn [slashed length]. rewrite app_length.
  split; [lia|]. constructor; [lia|]. eapply Forall_impl; [|exact IH2]. cbn beta. intros; lia.
Qed.
Lemma parts_of_bounds cwd path n : nlen (show_abs (spec_abs cwd path)) <= n -> n < 4294967296 ->
  nlen (parts_of (spec_abs cwd path)) <= nlen (show_abs (spec_abs cwd path)) /\
  Forall (fun p => nlen p < 4294967296) (parts_of (spec_abs cwd path)).
Proof.
  intros H1 H2. destruct (spec_abs cwd path) as [|c cs].
  - cbn [parts_of show_abs]. split; [reflexivity|]. constructor; [reflexivity|constructor].
  - cbn [parts_of show_abs] in *. destruct (slashed_length (c :: cs)) as [A B]. split; [exact A|].
    eapply Forall_impl; [|exact B]. cbn beta. intros; lia.
Qed.

Lemma add_path_spec cwd d path : rooted cwd -> wf d -> nlen d + room1 (FnAdd cwd path) < 4294967296 ->
  exists d' id, add_path cwd d path = Ok (d', id) /\ wf d' /\ extends d d' /\
    is_path d' id (parts_of (spec_abs cwd path)) /\ nlen d' <= nlen d + room1 (FnAdd cwd path).
Proof.
  intros R W Hs. unfold add_path. rewrite path_abs_spec by exact R.
  rewrite path_parts_show by apply spec_abs_ok. cbn [room1] in *.
  destruct (parts_of_bounds cwd path (nlen (show_abs (spec_abs cwd path)))) as [B1 B2]; [lia|lia|].
  destruct (add_parts_spec (parts_of (spec_abs cwd path)) d 0 [] W) as (d' & id & E & W' & X & P & L).
  - constructor.
  - lia.
  - exact B2.
  - exists d', id. split; [exact E|]. split; [exact W'|]. split; [exact X|]. split; [exact P|].
    unfold nlen in *. lia.
Qed.
Lemma add_path_known cwd d path id : rooted cwd -> wf d -> is_path d id (parts_of (spec_abs cwd path)) ->
  add_path cwd d path = Ok (d, id).
Proof.
  intros R W H. unfold add_path. rewrite path_abs_spec by exact R.
  rewrite path_parts_show by apply spec_abs_ok. apply add_parts_known with (cs := []); auto. constructor.
Qed.

(** The ids returned by a history are the ids, in the final tree, of the paths added. *)
Lemma fn_run_spec : forall ops d, ops_ok ops -> wf d -> nlen d + room ops < 4294967296 ->
  exists e ids, fn_run d ops = Ok (e, ids) /\ wf e /\ extends d e /\ nlen e <= nlen d + room ops /\
    Forall2 (fun id cp => is_path e id (parts_of (spec_abs (fst cp) (snd cp)))) ids (added ops).
Proof.
  induction ops as [|[cwd path|] ops IH]; intros d R W Hs; cbn [room fold_right] in Hs.
  - exists d, []. cbn [fn_run]. split; [reflexivity|]. split; [exact W|]. split; [apply extends_refl|].
    split; [lia|constructor].
  - fold (room ops) in Hs. cbn [fn_run].
    destruct (add_path_spec cwd d path (R _ _ (or_introl eq_refl)) W) as (d1 & id & E & W1 & X1 & P1 & L1); [lia|].
    rewrite E. cbn [bind].
    destruct (IH d1) as (e & ids & E2 & W2 & X2 & L2 & F2);
      [intros c p Hi; exact (R c p (or_intror Hi))|exact W1|lia|].
    rewrite E2. cbn [bind]. exists e, (id :: ids). split; [reflexivity|]. split; [exact W2|].
    split; [eapply extends_trans; eauto|]. split; [cbn [room fold_right]; fold (room ops); lia|].
    unfold added. cbn [map concat app]. constructor; [|exact F2]. eapply extends_path; eauto.
  - fold (room ops) in Hs. cbn [room1] in Hs. cbn [fn_run].
    destruct (reload_spec d W) as (d1 & E & W1 & S1). rewrite E. cbn [bind].
    assert (nlen d1 = nlen d) as Ln by (unfold nlen; rewrite <- (skel_length d1), S1, skel_length; reflexivity).
    destruct (IH d1) as (e & ids & E2 & W2 & X2 & L2 & F2);
      [intros c p Hi; exact (R c p (or_intror Hi))|exact W1|lia|].
    exists e, ids. split; [exact E2|]. split; [exact W2|].
    split; [destruct X2 as [t Xt]; exists t; congruence|].
    split; [cbn [room fold_right room1]; fold (room ops); lia|]. exact F2.
Qed.

(** Two equivalent trees give the same ids for the same history. *)
Lemma fn_run_equiv : forall ops d d', ops_ok ops -> wf d -> wf d' -> skel d = skel d' ->
  nlen d + room ops < 4294967296 ->
  exists e e' ids, fn_run d ops = Ok (e, ids) /\ fn_run d' ops = Ok (e', ids) /\ skel e = skel e'.
Proof.
  induction ops as [|[cwd path|] ops IH]; intros d d' R W W' E Hs; cbn [room fold_right] in Hs.
  - exists d, d', []. auto.
  - fold (room ops) in Hs. cbn [fn_run]. pose proof (R _ _ (or_introl eq_refl)) as R1.
    destruct (add_path_spec cwd d path R1 W) as (d1 & id & E1 & W1 & X1 & P1 & L1); [lia|].
    destruct (add_parts_equiv (path_parts (path_abs cwd path)) d d' 0 [] d1 id W W' E) as (d1' & E1' & S1 & _ & W1').
    + constructor.
    + rewrite path_abs_spec, path_parts_show by (exact R1 || apply spec_abs_ok). cbn [room1] in Hs.
      destruct (parts_of_bounds cwd path (nlen (show_abs (spec_abs cwd path)))); lia.
    + rewrite path_abs_spec, path_parts_show by (exact R1 || apply spec_abs_ok). cbn [room1] in Hs.
      destruct (parts_of_bounds cwd path (nlen (show_abs (spec_abs cwd path)))); [lia|lia|assumption].
    + exact E1.
    + rewrite E1. unfold add_path at 1. rewrite E1'. cbn [bind].
      destruct (IH d1 d1') as (e & e' & ids & F1 & F2 & F3);
        [intros c p Hi; exact (R c p (or_intror Hi))|exact W1|exact W1'|exact S1|lia|].
      rewrite F1, F2. cbn [bind]. exists e, e', (id :: ids). auto.
  - fold (room ops) in Hs. cbn [room1] in Hs. cbn [fn_run].
    destruct (reload_spec d W) as (d1 & E1 & W1 & S1). destruct (reload_spec d' W') as (d1' & E1' & W1' & S1').
    rewrite E1, E1'. cbn [bind].
    apply IH; auto; [intros c p Hi; exact (R c p (or_intror Hi))|congruence|].
    unfold nlen in *. rewrite <- (skel_length d1), S1, skel_length. lia.
Qed.

Lemma room_app a b : room (a ++ b) = room a + room b.
Proof. induction a as [|o a IH]; cbn [app room fold_right]; [fold (room b); lia|]. fold (room (a ++ b)) (room a). lia. Qed.

(** * The properties *)
Lemma paths_read_back before cwd path after :
  ops_ok (before ++ FnAdd cwd path :: after) ->
  room (before ++ FnAdd cwd path :: after) < 4294967295 ->
  exists d1 ids1 d2 id d3 ids3,
    fn_run new_fnames before = Ok (d1, ids1) /\ add_path cwd d1 path = Ok (d2, id) /\
    fn_abs d2 id = Ok (show_abs (spec_abs cwd path)) /\
    fn_run d2 after = Ok (d3, ids3) /\ fn_abs d3 id = Ok (show_abs (spec_abs cwd path)).
Proof.
  intros R Hs. rewrite room_app in Hs. cbn [room fold_right] in Hs. fold (room after) in Hs.
  assert (ops_ok before) as R1 by (intros c p Hi; apply (R c p), in_or_app; left; exact Hi).
  assert (ops_ok after) as R2 by (intros c p Hi; apply (R c p), in_or_app; right; right; exact Hi).
  assert (rooted cwd) as R3 by (apply (R cwd path), in_or_app; right; left; reflexivity).
  assert (nlen new_fnames = 1) as N1 by reflexivity.
  destruct (fn_run_spec before new_fnames R1 new_wf) as (d1 & ids1 & E1 & W1 & X1 & L1 & _); [lia|].
  destruct (add_path_spec cwd d1 path R3 W1) as (d2 & id & E2 & W2 & X2 & P2 & L2); [lia|].
  destruct (fn_run_spec after d2 R2 W2) as (d3 & ids3 & E3 & W3 & X3 & L3 & _); [lia|].
  exists d1, ids1, d2, id, d3, ids3. split; [exact E1|]. split; [exact E2|].
  split; [rewrite (fn_abs_path d2 id _ W2 P2), parts_show; reflexivity|]. split; [exact E3|].
  rewrite (fn_abs_path d3 id _ W3 (extends_path _ _ _ _ X3 P2)), parts_show. reflexivity.
Qed.

Lemma ids_identify ops : ops_ok ops -> room ops < 4294967295 ->
  exists d ids, fn_run new_fnames ops = Ok (d, ids) /\ length ids = length (added ops) /\
    (forall i j idi idj ci pi cj pj,
       nth_error ids i = Some idi -> nth_error (added ops) i = Some (ci, pi) ->
       nth_error ids j = Some idj -> nth_error (added ops) j = Some (cj, pj) ->
       (idi = idj <-> spec_abs ci pi = spec_abs cj pj)) /\
    (forall i idi ci pi, nth_error ids i = Some idi -> nth_error (added ops) i = Some (ci, pi) ->
       forall c p, rooted c -> spec_abs c p = spec_abs ci pi -> add_path c d p = Ok (d, idi)) /\
    (forall c p, rooted c -> room ops + room1 (FnAdd c p) < 4294967295 ->
       exists d' id, add_path c d p = Ok (d', id) /\
         (forall v s, fn_abs d v = Ok s -> v < nlen d -> fn_abs d' v = Ok s)).
Proof.
  intros R Hs. assert (nlen new_fnames = 1) as N1 by reflexivity.
  destruct (fn_run_spec ops new_fnames R new_wf) as (d & ids & E & W & X & L & F); [lia|].
  exists d, ids. split; [exact E|]. split; [clear - F; induction F; cbn [length]; congruence|].
  assert (forall i idi ci pi, nth_error ids i = Some idi -> nth_error (added ops) i = Some (ci, pi) ->
    is_path d idi (parts_of (spec_abs ci pi))) as P.
  { clear - F. revert F. generalize (added ops) as l. intros l F. induction F as [|x y l1 l2 Hxy F IH]; intros [|i] idi ci pi H1 H2;
      try discriminate; cbn [nth_error] in *.
    - inv H1. inv H2. exact Hxy.
    - eapply IH; eauto. }
  split; [|split].
  - intros i j idi idj ci pi cj pj A1 A2 B1 B2. pose proof (P _ _ _ _ A1 A2) as PA. pose proof (P _ _ _ _ B1 B2) as PB.
    split; intros Eq.
    + subst idj. apply parts_of_inj; try apply spec_abs_ok. eapply is_path_fun; eauto.
    + rewrite Eq in PA. eapply is_path_inj; eauto.
  - intros i idi ci pi A1 A2 c p Rc Eq. apply add_path_known; auto. rewrite Eq. eapply P; eauto.
  - intros c p Rc Hr. destruct (add_path_spec c d p Rc W) as (d' & id & E2 & W2 & X2 & P2 & L2); [lia|].
    exists d', id. split; [exact E2|]. intros v s Hv Hl.
    destruct (is_path_total d W v Hl) as (cs & Hcs & _).
    rewrite (fn_abs_path d v cs W Hcs) in Hv. inv Hv.
    apply fn_abs_path; [exact W2|]. eapply extends_path; eauto.
Qed.

Lemma reload_invisible ops : ops_ok ops -> room ops < 4294967295 ->
  exists d ids d', fn_run new_fnames ops = Ok (d, ids) /\ read_fnames (fn_write d) = Ok d' /\
    (forall v, fn_abs d' v = fn_abs d v) /\
    (forall later, ops_ok later -> room ops + room later < 4294967295 ->
       exists e e' lids, fn_run d later = Ok (e, lids) /\ fn_run d' later = Ok (e', lids) /\
         (forall v, fn_abs e' v = fn_abs e v)).
Proof.
  intros R Hs. assert (nlen new_fnames = 1) as N1 by reflexivity.
  destruct (fn_run_spec ops new_fnames R new_wf) as (d & ids & E & W & X & L & F); [lia|].
  destruct (reload_spec d W) as (d' & E' & W' & S'). exists d, ids, d'.
  split; [exact E|]. split; [exact E'|]. split; [intros v; apply fn_abs_skel; exact S'|].
  intros later Rl Hl.
  destruct (fn_run_equiv later d d' Rl W W' (eq_sym S')) as (e & e' & lids & F1 & F2 & F3); [lia|].
  exists e, e', lids. split; [exact F1|]. split; [exact F2|]. intros v. apply fn_abs_skel. symmetry. exact F3.
Qed.
