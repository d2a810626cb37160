(** Several goroutines in addPath. *)
From Coq Require Import Lia.
From Verif Require Import Model.Base Model.Path Model.Fnames Model.PathRace.
From Verif Require Import Spec.Paths Proof.Tactics Proof.PathP Proof.FnamesP.
Local Open Scope N_scope.

(** The slice is within its array, and its elements have maps of their own. *)
Record pset_ok (s : pset) : Prop := {
  po_ptr : (s_ptr s < length (s_heap s))%nat;
  po_len : (s_len s <= length (nth (s_ptr s) (s_heap s) []))%nat;
  po_map : forall i c k, nth_error (live s) i = Some c -> c_map c = Some k -> (k < length (s_maps s))%nat;
  po_own : forall i j c c' k, nth_error (live s) i = Some c -> nth_error (live s) j = Some c' -> c_map c = Some k -> c_map c' = Some k -> i = j }.
(** What calls that add do not change. *)
Definition keeps (s s' : pset) : Prop := forall i c, nth_error (live s) i = Some c ->
  exists c', nth_error (live s') i = Some c' /\ c_parent c' = c_parent c /\ c_name c' = c_name c /\ (c_map c <> None -> c_map c' = c_map c).
Lemma keeps_refl s : keeps s s.
Proof. intros i c E. exists c. auto. Qed.
Lemma keeps_trans a b c : keeps a b -> keeps b c -> keeps a c.
Proof.
  intros H1 H2 i x E. destruct (H1 i x E) as (y & Ey & P1 & N1 & M1). destruct (H2 i y Ey) as (z & Ez & P2 & N2 & M2).
  exists z. split; [exact Ez|]. split; [congruence|]. split; [congruence|]. intros Hm. rewrite <- (M1 Hm). apply M2. rewrite (M1 Hm). exact Hm.
Qed.

Lemma live_length s : pset_ok s -> length (live s) = s_len s.
Proof. intros O. unfold live. rewrite firstn_length. pose proof (po_len s O). lia. Qed.
Lemma paths_length s : pset_ok s -> length (paths_of s) = s_len s.
Proof. intros O. unfold paths_of. rewrite map_length. apply live_length, O. Qed.
Lemma firstn_upd {A} (x : A) : forall l i n, firstn n (upd i x l) = upd i x (firstn n l).
Proof. induction l as [|y l IH]; intros [|i] [|n]; cbn [upd firstn]; try reflexivity. f_equal. apply IH. Qed.
Lemma map_upd {A B} (f : A -> B) x : forall l i, map f (upd i x l) = upd i (f x) (map f l).
Proof. induction l as [|y l IH]; intros [|i]; cbn [upd map]; try reflexivity. f_equal. apply IH. Qed.
Lemma nth_upd_eq {A} (x d : A) : forall l i, (i < length l)%nat -> nth i (upd i x l) d = x.
Proof. induction l as [|y l IH]; intros [|i] L; cbn [upd nth length] in *; try lia; [reflexivity|]. apply IH. lia. Qed.
Lemma nth_upd_ne {A} (x d : A) : forall l i j, i <> j -> nth j (upd i x l) d = nth j l d.
Proof. induction l as [|y l IH]; intros [|i] [|j] L; cbn [upd nth] in *; try reflexivity; try lia. apply IH. lia. Qed.
Lemma upd_id {A} (x : A) : forall l i, nth_error l i = Some x -> upd i x l = l.
Proof. induction l as [|y l IH]; intros [|i] E; cbn [upd nth_error] in *; try discriminate; [congruence|]. f_equal. apply IH, E. Qed.
Lemma map_ext_nth {A B} (f g : A -> B) : forall l, (forall i x, nth_error l i = Some x -> f x = g x) -> map f l = map g l.
Proof. induction l as [|y l IH]; intros H; [reflexivity|]. cbn [map]. f_equal; [exact (H 0%nat y eq_refl)|]. apply IH. intros i x E. exact (H (S i) x E). Qed.

Lemma nth_error_ext {A} : forall l l' : list A, (forall i, nth_error l i = nth_error l' i) -> l = l'.
Proof.
  induction l as [|x l IH]; intros [|y l'] H; [reflexivity|discriminate (H 0%nat)|discriminate (H 0%nat)|]. f_equal; [injection (H 0%nat); auto|]. apply IH. intros i. exact (H (S i)).
Qed.

Lemma forall2_at {A B} (P : A -> B -> Prop) l1 l2 : Forall2 P l1 l2 -> forall k x y, nth_error l1 k = Some x -> nth_error l2 k = Some y -> P x y.
Proof. induction 1 as [|a b l1 l2 Hab F IH]; intros [|k] x y E1 E2; cbn [nth_error] in *; try discriminate; [congruence|]. exact (IH k x y E1 E2). Qed.
Section Race.
  Variable grow : nat -> nat.
  Notation path_step := (path_step grow).
  Notation path_race := (path_race grow).

  Lemma prace_app s1 : forall s2 m cs, path_race (s1 ++ s2) m cs = let '(m1, cs1) := path_race s1 m cs in path_race s2 m1 cs1.
  Proof.
    induction s1 as [|i s1 IH]; intros s2 m cs; cbn [app PathRace.path_race]; [reflexivity|].
    destruct (nth_error cs i) as [c|]; [|apply IH]. destruct (path_step m c) as [m' c']. apply IH.
  Qed.
  (** One goroutine alone. *)
  Fixpoint by_itself (k : nat) (m : pset) (c : adding) : pset * adding :=
    match k with O => (m, c) | S k => let '(m', c') := path_step m c in by_itself k m' c' end.
  Lemma prace_alone k : forall i m cs c, nth_error cs i = Some c ->
    path_race (repeat i k) m cs = let '(m', c') := by_itself k m c in (m', upd i c' cs).
  Proof.
    induction k as [|k IH]; intros i m cs c E; cbn [repeat PathRace.path_race by_itself].
    - rewrite upd_id by exact E. reflexivity.
    - rewrite E. destruct (path_step m c) as [m' c'].
      assert (Li : (i < length cs)%nat) by (apply nth_error_Some; congruence).
      rewrite (IH i m' (upd i c' cs) c' (nth_error_upd_eq _ _ _ Li)). destruct (by_itself k m' c') as [m2 c2]. f_equal.
      clear. revert i. induction cs as [|a cs IH]; intros [|i]; cbn; try reflexivity. f_equal. auto.
  Qed.
  Lemma by_itself_add a : forall b m c, by_itself (a + b) m c = let '(m', c') := by_itself a m c in by_itself b m' c'.
  Proof. induction a as [|a IH]; intros b m c; cbn [Nat.add by_itself]; [reflexivity|]. destruct (path_step m c) as [m' c']. apply IH. Qed.
  Lemma by_itself_done k : forall m id, by_itself k m (QDone id) = (m, QDone id).
  Proof. induction k as [|k IH]; intros; cbn [by_itself PathRace.path_step]; [reflexivity|apply IH]. Qed.

  (** Making a map changes nothing to be seen. *)
  Lemma made s parent c : pset_ok s -> nth_error (live s) (N.to_nat parent) = Some c -> c_map c = None ->
    let s' := MkPset (upd (s_ptr s) (upd (N.to_nat parent) (MkCell (c_parent c) (c_name c) (Some (length (s_maps s)))) (nth (s_ptr s) (s_heap s) [])) (s_heap s))
                (s_ptr s) (s_len s) (s_maps s ++ [[]]) in
    pset_ok s' /\ paths_of s' = paths_of s /\ keeps s s' /\ live s' = upd (N.to_nat parent) (MkCell (c_parent c) (c_name c) (Some (length (s_maps s)))) (live s).
  Proof.
    intros O E Em s'. set (x := MkCell (c_parent c) (c_name c) (Some (length (s_maps s)))) in *.
    assert (Lv : live s' = upd (N.to_nat parent) x (live s)).
    { unfold live, s'. cbn [s_len s_ptr s_heap]. rewrite nth_upd_eq by apply (po_ptr s O). apply firstn_upd. }
    assert (Lp : (N.to_nat parent < length (live s))%nat) by (apply nth_error_Some; congruence).
    assert (At : forall i c', nth_error (live s') i = Some c' -> (i = N.to_nat parent /\ c' = x) \/ (i <> N.to_nat parent /\ nth_error (live s) i = Some c')).
    { intros i c' Ei. rewrite Lv in Ei. destruct (Nat.eq_dec i (N.to_nat parent)) as [->|Ne].
      - rewrite nth_error_upd_eq in Ei by exact Lp. left. split; [reflexivity|congruence].
      - rewrite nth_error_upd_ne in Ei by congruence. right. auto. }
    split; [constructor|split; [|split; [|exact Lv]]].
    - unfold s'. cbn [s_ptr s_heap]. rewrite upd_length. apply (po_ptr s O).
    - unfold s'. cbn [s_ptr s_heap s_len]. rewrite nth_upd_eq by apply (po_ptr s O). rewrite upd_length. apply (po_len s O).
    - intros i c' k Ei Ek. unfold s'. cbn [s_maps]. rewrite app_length. cbn [length]. destruct (At i c' Ei) as [[-> ->]|[_ Ei']].
      + cbn [c_map x] in Ek. unfold x in Ek. cbn [c_map] in Ek. assert (k = length (s_maps s)) by congruence. lia.
      + pose proof (po_map s O i c' k Ei' Ek). lia.
    - intros i j ci cj k Ei Ej Mi Mj. destruct (At i ci Ei) as [[-> ->]|[Ni Ei']], (At j cj Ej) as [[-> ->]|[Nj Ej']].
      + reflexivity.
      + exfalso. unfold x in Mi. cbn [c_map] in Mi. pose proof (po_map s O j cj k Ej' Mj). assert (k = length (s_maps s)) by congruence. lia.
      + exfalso. unfold x in Mj. cbn [c_map] in Mj. pose proof (po_map s O i ci k Ei' Mi). assert (k = length (s_maps s)) by congruence. lia.
      + exact (po_own s O i j ci cj k Ei' Ej' Mi Mj).
    - unfold paths_of. rewrite Lv. unfold s'. cbn [s_maps].
      assert (X : map (cell_fname (s_maps s ++ [[]])) (live s) = map (cell_fname (s_maps s)) (live s)).
      { apply map_ext_nth. intros i y Ey. unfold cell_fname. f_equal. destruct (c_map y) as [k|] eqn:Ek; [|reflexivity].
        apply app_nth1, (po_map s O i y k Ey Ek). }
      rewrite map_upd, X. apply upd_id. rewrite nth_error_map, E. cbn [option_map]. f_equal. unfold cell_fname, x. cbn [c_parent c_name c_map]. rewrite Em.
      f_equal. rewrite app_nth2, Nat.sub_diag by lia. reflexivity.
    - intros i y Ey. rewrite Lv. destruct (Nat.eq_dec i (N.to_nat parent)) as [->|Ne].
      + exists x. rewrite nth_error_upd_eq by exact Lp. assert (y = c) as -> by congruence. repeat (split; [reflexivity|]). congruence.
      + exists y. rewrite nth_error_upd_ne by congruence. auto.
  Qed.
  (** Setting a key. *)
  Lemma entered s parent c k p child : pset_ok s -> nth_error (live s) (N.to_nat parent) = Some c -> c_map c = Some k ->
    let s' := MkPset (s_heap s) (s_ptr s) (s_len s) (upd k (sset p child (nth k (s_maps s) [])) (s_maps s)) in
    pset_ok s' /\ live s' = live s /\
    paths_of s' = upd (N.to_nat parent) (MkFname (c_parent c) (c_name c) (sset p child (nth k (s_maps s) []))) (paths_of s).
  Proof.
    intros O E Ek s'. assert (Lv : live s' = live s) by reflexivity. split; [constructor|split; [exact Lv|]].
    - apply (po_ptr s O).
    - apply (po_len s O).
    - intros i y k' Ei Mi. unfold s'. cbn [s_maps]. rewrite upd_length. exact (po_map s O i y k' Ei Mi).
    - exact (po_own s O).
    - unfold paths_of. rewrite Lv. unfold s'. cbn [s_maps]. pose proof (po_map s O _ c k E Ek) as Lk.
      apply nth_error_ext. intros i. rewrite nth_error_map. destruct (Nat.eq_dec i (N.to_nat parent)) as [->|Ne].
      + rewrite nth_error_upd_eq by (rewrite map_length; apply nth_error_Some; congruence). rewrite E. cbn [option_map]. f_equal. unfold cell_fname. rewrite Ek. f_equal. apply nth_upd_eq, Lk.
      + rewrite nth_error_upd_ne by congruence. rewrite nth_error_map. destruct (nth_error (live s) i) as [y|] eqn:Ey; [|reflexivity]. cbn [option_map]. f_equal. unfold cell_fname. f_equal.
        destruct (c_map y) as [k'|] eqn:Ek'; [|reflexivity]. apply nth_upd_ne. intros <-. apply Ne. exact (po_own s O i _ y c k Ey E Ek' Ek).
  Qed.
  (** Appending. *)
  Lemma appended s parent child p r : pset_ok s -> exists s', by_itself 3 s (QLoad parent child p r) = (s', QPart child r) /\ pset_ok s' /\
    s_maps s' = s_maps s /\ live s' = live s ++ [MkCell parent p None].
  Proof.
    intros O. cbn [by_itself PathRace.path_step]. set (arr := nth (s_ptr s) (s_heap s) []). set (new := MkCell parent p None).
    pose proof (po_ptr s O) as Lp. pose proof (po_len s O) as Ll. fold arr in Ll.
    assert (G : forall s', live s' = live s ++ [new] -> s_maps s' = s_maps s -> (s_ptr s' < length (s_heap s'))%nat -> (s_len s' <= length (nth (s_ptr s') (s_heap s') []))%nat -> pset_ok s').
    { intros s' Lv Em H1 H2.
      assert (At : forall i c k, nth_error (live s') i = Some c -> c_map c = Some k -> nth_error (live s) i = Some c).
      { intros i c k Ei Mi. rewrite Lv in Ei. destruct (Nat.lt_ge_cases i (length (live s))) as [L|L]; [rewrite nth_error_app1 in Ei by exact L; exact Ei|].
        rewrite nth_error_app2 in Ei by exact L. destruct (i - length (live s))%nat as [|[|j]]; cbn [nth_error] in Ei; try discriminate. assert (c = new) as -> by congruence. discriminate Mi. }
      constructor; [exact H1|exact H2| |].
      - intros i c k Ei Mi. rewrite Em. exact (po_map s O i c k (At i c k Ei Mi) Mi).
      - intros i j c c' k Ei Ej Mi Mj. exact (po_own s O i j c c' k (At i c k Ei Mi) (At j c' k Ej Mj) Mi Mj). }
    destruct (Nat.ltb_spec (s_len s) (length arr)) as [L|L].
    - cbn [by_itself PathRace.path_step s_heap s_maps]. eexists. split; [reflexivity|].
      match goal with |- pset_ok ?x /\ _ => assert (Lv : live x = live s ++ [new]) end.
      { unfold live. cbn [s_len s_ptr s_heap]. rewrite nth_upd_eq by exact Lp. fold arr. clear -L. revert L. generalize (s_len s). generalize arr. clear.
        intros a. induction a as [|y a IH]; intros [|n] L; cbn [length] in L; try lia; cbn [upd firstn app]; [reflexivity|]. f_equal. apply IH. lia. }
      split; [|split; [reflexivity|exact Lv]]. apply G; [exact Lv|reflexivity| |]; cbn [s_ptr s_heap s_len]; rewrite ?upd_length; [exact Lp|]. rewrite nth_upd_eq by exact Lp. rewrite upd_length. lia.
    - cbn [by_itself PathRace.path_step s_heap s_maps]. eexists. split; [reflexivity|].
      match goal with |- pset_ok ?x /\ _ => assert (Lv : live x = live s ++ [new]) end.
      { unfold live. cbn [s_len s_ptr s_heap]. rewrite app_nth2, Nat.sub_diag by lia. cbn [nth]. fold arr.
        assert (La : length (firstn (s_len s) arr) = s_len s) by (rewrite firstn_length; lia).
        rewrite firstn_app, La. replace (S (s_len s) - s_len s)%nat with 1%nat by lia. rewrite (firstn_all2 (n := S (s_len s)) (firstn (s_len s) arr)) by lia. reflexivity. }
      split; [|split; [reflexivity|exact Lv]]. apply G; [exact Lv|reflexivity| |]; cbn [s_ptr s_heap s_len].
      + rewrite app_length. cbn [length]. lia.
      + rewrite app_nth2, Nat.sub_diag by lia. cbn [nth]. rewrite app_length, firstn_length. cbn [length]. lia.
  Qed.
  (** A name that is there. *)
  Lemma walks_on s parent p r nd : pset_ok s -> nth_error (paths_of s) (N.to_nat parent) = Some nd -> sget p (n_children nd) <> 0 ->
    by_itself 2 s (QPart parent (p :: r)) = (s, QPart (sget p (n_children nd)) r).
  Proof.
    intros O E Hc. unfold paths_of in E. rewrite nth_error_map in E. destruct (nth_error (live s) (N.to_nat parent)) as [c|] eqn:El; [|discriminate].
    cbn [option_map] in E. assert (nd = cell_fname (s_maps s) c) as -> by congruence. unfold cell_fname in *. cbn [n_children] in *.
    destruct (c_map c) as [k|] eqn:Ek; [|elim Hc; reflexivity]. cbn [by_itself PathRace.path_step]. rewrite El, Ek. cbn [by_itself PathRace.path_step].
    destruct (N.eqb_spec (sget p (nth k (s_maps s) [])) 0) as [Z|_]; [contradiction|]. reflexivity.
  Qed.
  (** A name that is not, up to where its number has been chosen. *)
  Lemma chooses s parent p r nd : pset_ok s -> nth_error (paths_of s) (N.to_nat parent) = Some nd -> sget p (n_children nd) = 0 ->
    exists K s' k c, (K <= 4)%nat /\ by_itself K s (QPart parent (p :: r)) = (s', QSet parent k (u32 (N.of_nat (s_len s))) p r) /\ pset_ok s' /\ paths_of s' = paths_of s /\ keeps s s' /\
      nth_error (live s') (N.to_nat parent) = Some c /\ c_map c = Some k.
  Proof.
    intros O E Hc. unfold paths_of in E. rewrite nth_error_map in E. destruct (nth_error (live s) (N.to_nat parent)) as [c|] eqn:El; [|discriminate].
    cbn [option_map] in E. assert (nd = cell_fname (s_maps s) c) as -> by congruence. unfold cell_fname in *. cbn [n_children] in *.
    destruct (c_map c) as [k|] eqn:Ek.
    - exists 3%nat, s, k, c. split; [lia|]. split; [|repeat (split; [first [exact O|exact El|reflexivity|apply keeps_refl]|]); exact Ek].
      cbn [by_itself PathRace.path_step]. rewrite El, Ek. cbn [by_itself PathRace.path_step]. rewrite Hc. reflexivity.
    - destruct (made s parent c O El Ek) as (O' & P' & K' & L'). set (s' := MkPset _ _ _ _) in *.
      exists 4%nat, s', (length (s_maps s)), (MkCell (c_parent c) (c_name c) (Some (length (s_maps s)))). split; [lia|].
      split; [|split; [exact O'|split; [exact P'|split; [exact K'|split; [|reflexivity]]]]].
      + cbn [by_itself PathRace.path_step]. rewrite El, Ek. cbn [by_itself PathRace.path_step]. rewrite El. fold s'. cbn [by_itself PathRace.path_step].
        assert (nth (length (s_maps s)) (s_maps s') [] = []) as -> by (unfold s'; cbn [s_maps]; rewrite app_nth2, Nat.sub_diag by lia; reflexivity).
        reflexivity.
      + rewrite L'. apply nth_error_upd_eq, nth_error_Some. congruence.
  Qed.
  (** From there on. *)
  Lemma enters s parent k child p r c : pset_ok s -> nth_error (live s) (N.to_nat parent) = Some c -> c_map c = Some k ->
    exists s' nd, by_itself 4 s (QSet parent k child p r) = (s', QPart child r) /\ pset_ok s' /\ keeps s s' /\ nth_error (paths_of s) (N.to_nat parent) = Some nd /\
      paths_of s' = upd (N.to_nat parent) (MkFname (n_parent nd) (n_name nd) (sset p child (n_children nd))) (paths_of s) ++ [MkFname parent p []].
  Proof.
    intros O El Ek. destruct (entered s parent c k p child O El Ek) as (O1 & L1 & P1). set (s1 := MkPset (s_heap s) _ _ _) in *.
    destruct (appended s1 parent child p r O1) as (s2 & E2 & O2 & M2 & L2). exists s2, (cell_fname (s_maps s) c). split.
    { change 4%nat with (1 + 3)%nat. rewrite by_itself_add. cbn [by_itself PathRace.path_step] in E2 |- *. exact E2. }
    split; [exact O2|]. split; [|split].
    - intros i x Ex. exists x. split; [|auto]. rewrite L2, L1. rewrite nth_error_app1; [exact Ex|]. apply nth_error_Some. congruence.
    - unfold paths_of. rewrite nth_error_map, El. reflexivity.
    - unfold paths_of at 1. rewrite L2, M2, map_app. cbn [map]. change (map (cell_fname (s_maps s1)) (live s1)) with (paths_of s1). rewrite P1.
      unfold cell_fname. cbn [c_parent c_name c_map n_parent n_name n_children]. rewrite Ek. reflexivity.
  Qed.
  Lemma len_nlen s : pset_ok s -> N.of_nat (s_len s) = nlen (paths_of s).
  Proof. intros O. unfold nlen. rewrite (paths_length s O). reflexivity. Qed.
  (** A call by itself is the call. *)
  Lemma whole_call : forall parts s parent d' id, pset_ok s -> add_parts (paths_of s) parent parts = Ok (d', id) ->
    exists K s', (K <= 8 * length parts + 1)%nat /\ by_itself K s (QPart parent parts) = (s', QDone id) /\ pset_ok s' /\ paths_of s' = d' /\ keeps s s'.
  Proof.
    induction parts as [|p r IH]; intros s parent d' id O E; cbn [add_parts] in E.
    - exists 1%nat, s. assert (d' = paths_of s) as -> by congruence. assert (id = parent) as -> by congruence. split; [lia|]. split; [reflexivity|]. split; [exact O|]. split; [reflexivity|apply keeps_refl].
    - destruct (nth_error (paths_of s) (N.to_nat parent)) as [nd|] eqn:En; [|discriminate].
      destruct (N.eqb_spec (sget p (n_children nd)) 0) as [Z|NZ].
      + destruct (chooses s parent p r nd O En Z) as (K1 & s1 & k & c & LK & E1 & O1 & P1 & K1' & Ec & Ek).
        destruct (enters s1 parent k (u32 (N.of_nat (s_len s))) p r c O1 Ec Ek) as (s2 & nd' & E2 & O2 & K2 & En' & P2).
        rewrite P1 in En', P2. assert (nd' = nd) as -> by congruence. rewrite (len_nlen s O) in *. rewrite <- P2 in E.
        destruct (IH s2 _ _ _ O2 E) as (K3 & s3 & L3 & E3 & O3 & P3 & K3'). exists (K1 + (4 + K3))%nat, s3. split; [cbn [length]; lia|]. split.
        { rewrite by_itself_add, E1, by_itself_add, E2. exact E3. }
        split; [exact O3|]. split; [exact P3|]. eapply keeps_trans; [exact K1'|]. eapply keeps_trans; [exact K2|exact K3'].
      + destruct (IH s _ _ _ O E) as (K3 & s3 & L3 & E3 & O3 & P3 & K3'). exists (2 + K3)%nat, s3. split; [cbn [length]; lia|]. split; [|auto].
        rewrite by_itself_add, (walks_on s parent p r nd O En NZ). exact E3.
  Qed.
  (** Names that are all there. *)
  Lemma walks_down s i cs : pset_ok s -> wf (paths_of s) -> is_path (paths_of s) i cs ->
    forall r, by_itself (2 * length cs) s (QPart 0 (cs ++ r)) = (s, QPart i r).
  Proof.
    intros O W H. induction H as [|i nd cs Hi Hnd Hcs IH]; intros r; [reflexivity|].
    rewrite <- app_assoc, app_length. cbn [app length]. replace (2 * (length cs + 1))%nat with (2 * length cs + 2)%nat by lia. rewrite by_itself_add, IH.
    destruct (at_some (paths_of s) (n_parent nd)) as [pn Ep].
    { apply (is_path_lt _ _ _ W Hcs). }
    pose proof (wf_indexed _ W i nd pn Hi Hnd Ep) as Ei. rewrite (walks_on s (n_parent nd) (n_name nd) r pn O Ep) by (rewrite Ei; lia). rewrite Ei. reflexivity.
  Qed.
  Lemma not_there d i cs nd x : wf d -> is_path d i cs -> nth_error d (N.to_nat i) = Some nd -> (forall id, ~ is_path d id (cs ++ [x])) -> sget x (n_children nd) = 0.
  Proof.
    intros W H E No. destruct (N.eq_dec (sget x (n_children nd)) 0) as [Z|NZ]; [exact Z|]. exfalso.
    destruct (wf_child d W i nd x _ E eq_refl NZ) as (nc & Ec & Ep & En). apply (No (sget x (n_children nd))). rewrite <- En at 2. constructor; [lia|exact Ec|]. rewrite Ep. exact H.
  Qed.
  Lemma abs_ext d d' v cs : wf d -> extends d d' -> is_path d v cs -> fn_abs d' v = Ok (47 :: join_sep cs).
  Proof.
    intros W X H. unfold fn_abs.
    assert (G : forall fuel, (length cs < fuel)%nat -> abs_walk fuel d' v = Ok (rev cs)).
    { pose proof (extends_path d d' v cs X H) as H'. destruct (wf_root d W) as (rt & Er & _). destruct (extends_at d d' 0 rt X Er) as (rt' & Er' & _).
      clear -H' Er'. induction H' as [|i nd cs Hi Hnd Hcs IH]; intros [|k] L; try lia; cbn [abs_walk].
      - rewrite Er'. reflexivity.
      - rewrite Hnd. destruct (N.eqb_spec i 0); [lia|]. rewrite app_length in L. cbn [length] in L. rewrite IH by lia. cbn [bind]. rewrite rev_app_distr. reflexivity. }
    pose proof (is_path_lt _ _ _ W H) as Hl. destruct (is_path_total d W v Hl) as (cs2 & H2 & L). pose proof (is_path_fun _ _ _ H _ H2). subst cs2. unfold nlen in Hl.
    assert (Ll : (length d <= length d')%nat) by (destruct X as [t X]; apply (f_equal (@length _)) in X; rewrite app_length, !skel_length in X; lia).
    rewrite G by lia. cbn [bind]. rewrite reverse_parts_rev, rev_involutive. reflexivity.
  Qed.
  (** The wrong path. *)
  Theorem wrong_path s i ci x j cj y : pset_ok s -> wf (paths_of s) -> nlen (paths_of s) + 1 < 4294967296 -> nlen y < 4294967296 ->
    is_path (paths_of s) i ci -> is_path (paths_of s) j cj -> (forall id, ~ is_path (paths_of s) id (ci ++ [x])) -> (forall id, ~ is_path (paths_of s) id (cj ++ [y])) ->
    exists sched s', path_race sched s [QPart 0 (ci ++ [x]); QPart 0 (cj ++ [y])] = (s', [QDone (nlen (paths_of s)); QDone (nlen (paths_of s))]) /\
      fn_abs (paths_of s') (nlen (paths_of s)) = Ok (47 :: join_sep (cj ++ [y])).
  Proof.
    intros O W Hn Hy Pi Pj Nx Ny. set (d := paths_of s) in *.
    destruct (at_some d i (is_path_lt _ _ _ W Pi)) as [ni Ei]. destruct (at_some d j (is_path_lt _ _ _ W Pj)) as [nj Ej].
    pose proof (not_there d i ci ni x W Pi Ei Nx) as Zx. pose proof (not_there d j cj nj y W Pj Ej Ny) as Zy.
    destruct (chooses s i x [] ni O Ei Zx) as (K1 & s1 & k & c & _ & E1 & O1 & P1 & _ & Ec & Ek). rewrite (len_nlen s O) in E1. fold d in E1, P1.
    assert (U : u32 (nlen d) = nlen d) by (apply N.mod_small; lia). rewrite U in E1.
    assert (A : exists d', add_parts d j [y] = Ok (d', nlen d)).
    { cbn [add_parts]. rewrite Ej, Zy. cbn [N.eqb]. rewrite U. eexists. reflexivity. }
    destruct A as [d' A]. destruct (add_parts_spec [y] d j cj W Pj) as (d2 & id2 & A2 & W2 & X2 & P2 & _); [unfold nlen in *; cbn [length]; lia|constructor; [exact Hy|constructor]|].
    rewrite A in A2. assert (d2 = d') as -> by congruence. assert (id2 = nlen d) as -> by congruence. clear A2.
    rewrite <- P1 in A. destruct (whole_call [y] s1 j d' _ O1 A) as (K2 & s2 & _ & E2 & O2 & P2' & Kp).
    destruct (Kp _ _ Ec) as (c' & Ec' & _ & _ & Mc). rewrite Ek in Mc. specialize (Mc ltac:(discriminate)).
    destruct (enters s2 i k (nlen d) x [] c' O2 Ec' Mc) as (s3 & nd3 & E3 & O3 & _ & En3 & P3).
    exists (repeat 0%nat (2 * length ci + K1) ++ repeat 1%nat (2 * length cj + K2) ++ repeat 0%nat 5), s3. split.
    - rewrite prace_app. rewrite (prace_alone _ 0%nat s [QPart 0 (ci ++ [x]); QPart 0 (cj ++ [y])] (QPart 0 (ci ++ [x])) eq_refl). rewrite by_itself_add, (walks_down s i ci O W Pi), E1. cbn [upd].
      rewrite prace_app. rewrite (prace_alone _ 1%nat s1 [QSet i k (nlen d) x []; QPart 0 (cj ++ [y])] (QPart 0 (cj ++ [y])) eq_refl). rewrite by_itself_add, (walks_down s1 j cj O1) by (rewrite P1; assumption). rewrite E2, P1. cbn [upd].
      rewrite (prace_alone _ 0%nat s2 [QSet i k (nlen d) x []; QDone (nlen d)] (QSet i k (nlen d) x []) eq_refl). change 5%nat with (4 + 1)%nat. rewrite by_itself_add, E3. reflexivity.
    - apply (abs_ext d'); [exact W2| |exact P2]. rewrite P3, P2'. rewrite P2' in En3. exists [(i, x)]. unfold skel. rewrite map_app. cbn [map n_parent n_name]. f_equal.
      rewrite map_upd. cbn [n_parent n_name]. apply upd_id. rewrite nth_error_map, En3. reflexivity.
  Qed.

  (** Calls one at a time. *)
  Lemma call_is_add s cwd path d' id : pset_ok s -> add_path cwd (paths_of s) path = Ok (d', id) ->
    forall K, (8 * length (path_parts (path_abs cwd path)) + 1 <= K)%nat ->
    exists s', by_itself K s (begin_add cwd path) = (s', QDone id) /\ pset_ok s' /\ paths_of s' = d'.
  Proof.
    intros O E K HK. destruct (whole_call _ s 0 d' id O E) as (K1 & s' & L1 & E1 & O1 & P1 & _). exists s'. split; [|auto].
    replace K with (K1 + (K - K1))%nat by lia. rewrite by_itself_add. unfold begin_add. rewrite E1. apply by_itself_done.
  Qed.
  Lemma one_by_one (doc : nat -> bytes * bytes) K : forall order s cs d' ids, pset_ok s -> NoDup order ->
    (forall i, In i order -> nth_error cs i = Some (begin_add (fst (doc i)) (snd (doc i)))) ->
    (forall i, In i order -> (8 * length (path_parts (path_abs (fst (doc i)) (snd (doc i)))) + 1 <= K)%nat) ->
    fn_run (paths_of s) (map (fun i => FnAdd (fst (doc i)) (snd (doc i))) order) = Ok (d', ids) ->
    exists s' cs', path_race (concat (map (fun i => repeat i K) order)) s cs = (s', cs') /\ pset_ok s' /\ paths_of s' = d' /\
      Forall2 (fun i id => nth_error cs' i = Some (QDone id)) order ids /\ (forall i, ~ In i order -> nth_error cs' i = nth_error cs i).
  Proof.
    induction order as [|i order IH]; intros s cs d' ids O Nd Hp HK E; cbn [map fn_run concat PathRace.path_race] in *.
    - assert (d' = paths_of s) as -> by congruence. assert (ids = []) as -> by congruence. exists s, cs. repeat (split; [first [reflexivity|exact O|constructor]|]). reflexivity.
    - inv Nd. destruct (add_path (fst (doc i)) (paths_of s) (snd (doc i))) as [[d1 id]| | |] eqn:Ea; cbn [bind] in E; try discriminate.
      destruct (fn_run d1 _) as [[d2 ids1]| | |] eqn:Er; cbn [bind] in E; try discriminate.
      assert (d' = d2) as -> by congruence. assert (ids = id :: ids1) as -> by congruence.
      destruct (call_is_add s _ _ _ _ O Ea K (HK i (or_introl eq_refl))) as (s1 & E1 & O1 & P1). subst d1.
      rewrite prace_app, (prace_alone K i s cs _ (Hp i (or_introl eq_refl))), E1.
      assert (Li : (i < length cs)%nat) by (apply nth_error_Some; rewrite (Hp i (or_introl eq_refl)); discriminate).
      destruct (IH s1 (upd i (QDone id) cs) d2 ids1 O1) as (s2 & cs2 & E2 & O2 & P2 & F2 & R2); auto.
      { intros j Hj. rewrite nth_error_upd_ne; [apply Hp; right; exact Hj|]. intros ->. contradiction. }
      { intros j Hj. apply HK. right. exact Hj. }
      exists s2, cs2. split; [exact E2|]. split; [exact O2|]. split; [exact P2|]. split.
      + constructor; [|exact F2]. rewrite R2 by assumption. apply nth_error_upd_eq, Li.
      + intros j Hj. rewrite R2 by (intros X; apply Hj; right; exact X). apply nth_error_upd_ne. intros ->. apply Hj. left. reflexivity.
  Qed.

  (** * In all interleavings *)
  Definition np (c : cell) : N * bytes := (c_parent c, c_name c).
  Section Base.
    Variable base : list (N * bytes).
    Definition good (s : pset) (ptr len : nat) : Prop := (ptr < length (s_heap s))%nat /\ (length base <= len)%nat /\ firstn (length base) (map np (nth ptr (s_heap s) [])) = base.
    Definition good_at (s : pset) (c : adding) : Prop :=
      match c with QPut _ _ _ _ ptr len => good s ptr len | QHead _ _ ptr len => good s ptr len | _ => True end.
    Lemma good_upd s s' ptr a : s_heap s' = upd ptr a (s_heap s) -> firstn (length base) (map np a) = base -> forall p l, good s p l -> good s' p l.
    Proof.
      intros E Ea p l (L & Ln & G). unfold good. rewrite E, upd_length. split; [exact L|]. split; [exact Ln|]. destruct (Nat.eq_dec ptr p) as [->|Ne]; [rewrite nth_upd_eq by exact L; exact Ea|rewrite nth_upd_ne by exact Ne; exact G].
    Qed.
    Lemma good_app s s' a : s_heap s' = s_heap s ++ [a] -> forall p l, good s p l -> good s' p l.
    Proof. intros E p l (L & Ln & G). unfold good. rewrite E, app_length. split; [lia|]. split; [exact Ln|]. rewrite app_nth1 by exact L. exact G. Qed.
    Lemma good_same s s' : s_heap s' = s_heap s -> forall p l, good s p l -> good s' p l.
    Proof. intros E p l G. unfold good. rewrite E. exact G. Qed.
    Lemma prefix_upd n (x : N * bytes) : forall l i, (n <= i)%nat -> firstn n (upd i x l) = firstn n l.
    Proof. revert n. intros n l. revert n. induction l as [|y l IH]; intros [|n] [|i] L; cbn [upd firstn]; try reflexivity; try lia. f_equal. apply IH. lia. Qed.
    Lemma step_good s c s' c' : path_step s c = (s', c') -> good s (s_ptr s) (s_len s) -> good_at s c ->
      good s' (s_ptr s') (s_len s') /\ good_at s' c' /\ forall p l, good s p l -> good s' p l.
    Proof.
      intros E G H. destruct c as [parent [|p r]|parent p r|parent k p r|parent k p r|parent k child p r|parent child p r|parent child p r ptr len|child r ptr len|id|]; cbn [PathRace.path_step] in E.
      - assert (s' = s /\ c' = QDone parent) as [-> ->] by (split; congruence). cbn [good_at]. auto.
      - destruct (nth_error (live s) (N.to_nat parent)) as [nd|].
        + assert (s' = s) as -> by congruence. split; [exact G|]. split; [|auto]. destruct (c_map nd); [assert (c' = QFind parent n p r) as -> by congruence|assert (c' = QMake parent p r) as -> by congruence]; exact I.
        + assert (s' = s /\ c' = QPanic) as [-> ->] by (split; congruence). cbn [good_at]. auto.
      - destruct (nth_error (live s) (N.to_nat parent)) as [nd|] eqn:En.
        + pose proof (f_equal fst E) as Es. pose proof (f_equal snd E) as Ecc. cbn [fst snd] in Es, Ecc. clear E.
          assert (Q : forall p l, good s p l -> good s' p l).
          { eapply good_upd; [rewrite <- Es; reflexivity|]. rewrite map_upd. cbn [np c_parent c_name]. rewrite upd_id; [apply G|].
            unfold live in En. rewrite nth_error_map. assert (nth_error (nth (s_ptr s) (s_heap s) []) (N.to_nat parent) = Some nd) as ->; [|reflexivity].
            clear -En. revert En. generalize (N.to_nat parent) as i, (s_len s) as n, (nth (s_ptr s) (s_heap s) []) as a. induction i as [|i IH]; intros [|n] [|y a] E; cbn [firstn nth_error] in *; try discriminate; [exact E|]. exact (IH n a E). }
          split; [|split; [rewrite <- Ecc; exact I|exact Q]]. rewrite <- Es at 2 3. cbn [s_ptr s_len]. apply Q, G.
        + assert (s' = s /\ c' = QPanic) as [-> ->] by (split; congruence). cbn [good_at]. auto.
      - assert (s' = s) as -> by congruence. split; [exact G|]. split; [|auto]. destruct (_ =? 0); [assert (c' = QLen parent k p r) as -> by congruence; exact I|]. assert (c' = QPart (sget p (nth k (s_maps s) [])) r) as -> by congruence. exact I.
      - assert (s' = s) as -> by congruence. split; [exact G|]. split; [|auto]. assert (c' = QSet parent k (u32 (N.of_nat (s_len s))) p r) as -> by congruence. exact I.
      - pose proof (f_equal fst E) as Es. pose proof (f_equal snd E) as Ecc. cbn [fst snd] in Es, Ecc. clear E. assert (Q : forall p l, good s p l -> good s' p l) by (apply good_same; rewrite <- Es; reflexivity).
        split; [|split; [rewrite <- Ecc; exact I|exact Q]]. rewrite <- Es at 2 3. cbn [s_ptr s_len]. apply Q, G.
      - assert (s' = s) as -> by congruence. split; [exact G|]. split; [|auto]. assert (c' = QPut parent child p r (s_ptr s) (s_len s)) as -> by congruence. exact G.
      - cbn [good_at] in H. destruct H as (L & Ln & Gp). set (arr := nth ptr (s_heap s) []) in *. destruct (len <? length arr)%nat eqn:El.
        + pose proof (f_equal fst E) as Es. pose proof (f_equal snd E) as Ecc. cbn [fst snd] in Es, Ecc. clear E.
          assert (Q : forall p l, good s p l -> good s' p l).
          { eapply good_upd; [rewrite <- Es; reflexivity|]. rewrite map_upd, prefix_upd by exact Ln. exact Gp. }
          split; [rewrite <- Es at 2 3; cbn [s_ptr s_len]; apply Q, G|]. split; [|exact Q]. rewrite <- Ecc. cbn [good_at]. apply Q. split; [exact L|]. split; [lia|exact Gp].
        + pose proof (f_equal fst E) as Es. pose proof (f_equal snd E) as Ecc. cbn [fst snd] in Es, Ecc. clear E. apply Nat.ltb_ge in El.
          assert (Q : forall p l, good s p l -> good s' p l) by (eapply good_app; rewrite <- Es; reflexivity).
          split; [rewrite <- Es at 2 3; cbn [s_ptr s_len]; apply Q, G|]. split; [|exact Q]. rewrite <- Ecc. cbn [good_at]. rewrite <- Es. unfold good. cbn [s_heap]. rewrite app_length. cbn [length].
          split; [lia|]. split; [lia|]. rewrite app_nth2, Nat.sub_diag by lia. cbn [nth]. rewrite map_app, <- firstn_map.
          assert (La : (length base <= length (map np arr))%nat) by (rewrite <- Gp at 1; rewrite firstn_length; lia).
          rewrite firstn_app, firstn_firstn, firstn_length. replace (Nat.min (length base) len) with (length base) by lia. rewrite Gp.
          replace (length base - Nat.min len (length (map np arr)))%nat with 0%nat by lia. cbn [firstn]. apply app_nil_r.
      - pose proof (f_equal fst E) as Es. pose proof (f_equal snd E) as Ecc. cbn [fst snd] in Es, Ecc. clear E. assert (Q : forall p l, good s p l -> good s' p l) by (apply good_same; rewrite <- Es; reflexivity).
        split; [|split; [rewrite <- Ecc; exact I|exact Q]]. rewrite <- Es at 2 3. cbn [s_ptr s_len]. apply Q, H.
      - assert (s' = s /\ c' = QDone id) as [-> ->] by (split; congruence). cbn [good_at]. auto.
      - assert (s' = s /\ c' = QPanic) as [-> ->] by (split; congruence). cbn [good_at]. auto.
    Qed.
    Lemma race_good : forall sched s cs, good s (s_ptr s) (s_len s) -> Forall (good_at s) cs ->
      let s' := fst (path_race sched s cs) in good s' (s_ptr s') (s_len s').
    Proof.
      induction sched as [|i sched IH]; intros s cs G F; cbn [PathRace.path_race]; [exact G|].
      destruct (nth_error cs i) as [c|] eqn:Ec; [|apply IH; assumption]. destruct (path_step s c) as [s1 c1] eqn:E1.
      rewrite Forall_forall in F. destruct (step_good s c s1 c1 E1 G (F c (nth_error_In _ _ Ec))) as (G1 & H1 & Q). apply IH; [exact G1|].
      apply Forall_forall. intros x Hx. apply In_nth_error in Hx. destruct Hx as [j Ej]. rewrite nth_error_upd in Ej. destruct (i =? j)%nat eqn:Eij.
      - apply Nat.eqb_eq in Eij. subst j. rewrite Ec in Ej. assert (x = c1) as -> by congruence. exact H1.
      - specialize (F x (nth_error_In _ _ Ej)). destruct x; cbn [good_at] in *; auto.
    Qed.
  End Base.
  Theorem earlier_paths sched s cs : pset_ok s -> wf (paths_of s) -> Forall (fun c => exists cwd path, c = begin_add cwd path) cs ->
    forall id, id < nlen (paths_of s) -> fn_abs (paths_of (fst (path_race sched s cs))) id = fn_abs (paths_of s) id.
  Proof.
    intros O W F id Hid. set (base := map np (live s)).
    assert (Lb : length base = s_len s) by (unfold base; rewrite map_length; apply live_length, O).
    assert (G : good base s (s_ptr s) (s_len s)).
    { split; [apply (po_ptr s O)|]. split; [lia|]. rewrite Lb, firstn_map. reflexivity. }
    assert (F' : Forall (good_at base s) cs).
    { eapply Forall_impl; [|exact F]. intros c (cwd & path & ->). exact I. }
    pose proof (race_good base sched s cs G F') as (_ & Ll & Gr). set (s' := fst (path_race sched s cs)) in *.
    assert (Sk : forall x, skel (paths_of x) = map np (live x)) by (intros x; unfold skel, paths_of; rewrite map_map; reflexivity).
    assert (X : extends (paths_of s) (paths_of s')).
    { exists (skipn (length base) (map np (live s'))). rewrite !Sk. fold base.
      assert (base = firstn (length base) (map np (live s'))) as Eb.
      { unfold live. rewrite <- firstn_map, firstn_firstn. replace (Nat.min (length base) (s_len s')) with (length base) by lia. symmetry. exact Gr. }
      rewrite Eb at 1. symmetry. apply firstn_skipn. }
    destruct (is_path_total (paths_of s) W id Hid) as (cs0 & P & _). rewrite (abs_ext _ _ _ _ W X P). symmetry. exact (fn_abs_path _ _ _ W P).
  Qed.

  (** * From the beginning *)
  Lemma new_pset_ok : pset_ok new_pset.
  Proof.
    assert (H : forall i c, nth_error (live new_pset) i = Some c -> c = zero_cell).
    { intros [|[|i]] c E; cbn in E; [congruence|discriminate|discriminate]. }
    constructor; [cbn; lia|cbn; lia| |]; intros i; intros; match goal with E : nth_error _ i = Some ?c |- _ => rewrite (H _ _ E) in * end; discriminate.
  Qed.
  Definition start (adds : list (bytes * bytes)) : list adding := map (fun a => begin_add (fst a) (snd a)) adds.
  Definition turns (n K : nat) : list nat := concat (map (fun i => repeat i K) (seq 0 n)).
  Definition as_ops (adds : list (bytes * bytes)) : list fn_op := map (fun a => FnAdd (fst a) (snd a)) adds.
  Lemma added_as_ops adds : added (as_ops adds) = adds.
  Proof. induction adds as [|[c p] adds IH]; [reflexivity|]. change ((c, p) :: added (as_ops adds) = (c, p) :: adds). f_equal. exact IH. Qed.
  Lemma nth_all (adds : list (bytes * bytes)) : map (fun i => nth i adds ([], [])) (seq 0 (length adds)) = adds.
  Proof.
    induction adds as [|a adds IH]; [reflexivity|]. cbn [length seq map nth]. f_equal. rewrite <- seq_shift, map_map. exact IH.
  Qed.
  Lemma set_up adds K : ops_ok (as_ops adds) -> room (as_ops adds) < 4294967295 ->
    (forall a, In a adds -> (8 * length (spec_abs (fst a) (snd a)) + 9 <= K)%nat) ->
    exists s ids, path_race (turns (length adds) K) new_pset (start adds) = (s, map QDone ids) /\ pset_ok s /\ wf (paths_of s) /\
      fn_run new_fnames (as_ops adds) = Ok (paths_of s, ids) /\
      Forall2 (fun id cp => is_path (paths_of s) id (parts_of (spec_abs (fst cp) (snd cp)))) ids adds.
  Proof.
    intros R Hr HK. assert (nlen new_fnames = 1) as N1 by reflexivity.
    destruct (fn_run_spec (as_ops adds) new_fnames R new_wf) as (d & ids & E & W & X & L & F); [lia|]. rewrite added_as_ops in F.
    set (doc := fun i => nth i adds ([], [])).
    assert (Em : map (fun i => FnAdd (fst (doc i)) (snd (doc i))) (seq 0 (length adds)) = as_ops adds).
    { unfold as_ops. rewrite <- (nth_all adds) at 2. rewrite map_map. reflexivity. }
    assert (Hd : forall i, In i (seq 0 (length adds)) -> In (doc i) adds /\ nth_error adds i = Some (doc i)).
    { intros i Hi. apply in_seq in Hi. split; [apply nth_In; lia|apply nth_error_nth'; lia]. }
    destruct (one_by_one doc K (seq 0 (length adds)) new_pset (start adds) d ids new_pset_ok) as (s & cs' & Er & Os & Ps & F2 & R2).
    - apply seq_NoDup.
    - intros i Hi. unfold start. rewrite nth_error_map, (proj2 (Hd i Hi)). reflexivity.
    - intros i Hi. pose proof (HK _ (proj1 (Hd i Hi))) as H. assert (Rc : rooted (fst (doc i))).
      { apply (R (fst (doc i)) (snd (doc i))). unfold as_ops. apply in_map_iff. exists (doc i). split; [reflexivity|apply Hd, Hi]. }
      rewrite path_abs_spec, path_parts_show by (exact Rc || apply spec_abs_ok). destruct (spec_abs (fst (doc i)) (snd (doc i))) as [|z zs]; cbn [parts_of length] in *; lia.
    - rewrite Em. exact E.
    - subst d. exists s, ids. split; [|auto]. unfold turns. rewrite Er. f_equal.
      apply nth_error_ext. intros k. rewrite nth_error_map.
      assert (Lids : length ids = length adds) by (clear -F; induction F; cbn [length]; congruence).
      destruct (Nat.lt_ge_cases k (length adds)) as [Lk|Lk].
      + destruct (nth_error ids k) as [id|] eqn:Ei; [|apply nth_error_None in Ei; lia]. cbn [option_map].
        assert (Es : nth_error (seq 0 (length adds)) k = Some k) by (rewrite (nth_error_nth' _ 0%nat) by (rewrite seq_length; lia); rewrite seq_nth by lia; reflexivity).
        exact (forall2_at _ _ _ F2 k _ _ Es Ei).
      + rewrite R2 by (rewrite in_seq; lia). rewrite (proj2 (nth_error_None ids k)) by lia. cbn [option_map]. apply nth_error_None. unfold start. rewrite map_length. exact Lk.
  Qed.

  (** * Paths that are there *)
  Lemma quiet s id parts : pset_ok s -> wf (paths_of s) -> is_path (paths_of s) id parts -> forall k,
    fst (by_itself k s (QPart 0 parts)) = s /\ ((2 * length parts + 1 <= k)%nat -> by_itself k s (QPart 0 parts) = (s, QDone id)).
  Proof.
    intros O W P k. destruct (Nat.le_gt_cases (2 * length parts + 1) k) as [L|L].
    - assert (E : by_itself k s (QPart 0 parts) = (s, QDone id)); [|rewrite E; auto].
      replace k with (2 * length parts + (1 + (k - (2 * length parts + 1))))%nat by lia. rewrite by_itself_add.
      pose proof (walks_down s id parts O W P []) as E. rewrite app_nil_r in E. rewrite E, by_itself_add. cbn [by_itself PathRace.path_step]. apply by_itself_done.
    - split; [|lia]. set (j := (k / 2)%nat). rewrite <- (firstn_skipn j parts). pose proof P as P'. rewrite <- (firstn_skipn j parts) in P'. destruct (is_path_app_inv _ _ _ _ P') as [i Pi].
      pose proof (walks_down s i (firstn j parts) O W Pi (skipn j parts)) as E. pose proof (Nat.div_mod k 2 ltac:(lia)) as D. fold j in D. pose proof (Nat.mod_upper_bound k 2 ltac:(lia)) as M.
      rewrite firstn_length, Nat.min_l in E by lia. rewrite D, by_itself_add, E. destruct (k mod 2)%nat as [|[|m]]; [reflexivity| |lia].
      cbn [by_itself]. destruct (skipn j parts); cbn [PathRace.path_step]; [reflexivity|]. destruct (nth_error (live s) (N.to_nat i)); reflexivity.
  Qed.
  Lemma by_itself_panic k : forall m, by_itself k m QPanic = (m, QPanic).
  Proof. induction k as [|k IH]; intros; cbn [by_itself PathRace.path_step]; [reflexivity|apply IH]. Qed.
  Lemma quiet_end s id parts : pset_ok s -> wf (paths_of s) -> is_path (paths_of s) id parts -> forall k,
    snd (by_itself k s (QPart 0 parts)) <> QPanic /\ forall id', snd (by_itself k s (QPart 0 parts)) = QDone id' -> id' = id.
  Proof.
    intros O W P k. pose proof (proj2 (quiet s id parts O W P (k + (2 * length parts + 1))%nat) ltac:(lia)) as E. rewrite by_itself_add in E.
    destruct (by_itself k s (QPart 0 parts)) as [s1 c1]. cbn [snd]. split; [intros ->; rewrite by_itself_panic in E; congruence|]. intros id' ->. rewrite by_itself_done in E. congruence.
  Qed.
  Lemma quiet_race s : forall sched cs, (forall i c, nth_error cs i = Some c -> forall k, fst (by_itself k s c) = s) ->
    fst (path_race sched s cs) = s /\ forall i c, nth_error cs i = Some c ->
      nth_error (snd (path_race sched s cs)) i = Some (snd (by_itself (count_occ Nat.eq_dec sched i) s c)).
  Proof.
    induction sched as [|x sched IH]; intros cs H; cbn [PathRace.path_race count_occ]; [auto|].
    destruct (nth_error cs x) as [cx|] eqn:Ex.
    - pose proof (H x cx Ex 1%nat) as H1. cbn [by_itself] in H1. destruct (path_step s cx) as [s1 c1] eqn:E1. cbn [fst] in H1. subst s1.
      assert (Lx : (x < length cs)%nat) by (apply nth_error_Some; rewrite Ex; discriminate).
      destruct (IH (upd x c1 cs)) as [F N].
      { intros i c Ei k. destruct (Nat.eq_dec x i) as [Q|Q].
        - subst i. rewrite nth_error_upd_eq in Ei by exact Lx. assert (c = c1) as -> by congruence. pose proof (H x cx Ex (S k)) as H2. cbn [by_itself] in H2. rewrite E1 in H2. exact H2.
        - rewrite nth_error_upd_ne in Ei by exact Q. exact (H i c Ei k). }
      split; [exact F|]. intros i c Ei. destruct (Nat.eq_dec x i) as [Q|Q].
      + subst i. assert (c = cx) as -> by congruence. rewrite (N x c1 (nth_error_upd_eq x c1 cs Lx)). cbn [by_itself]. rewrite E1. reflexivity.
      + apply N. rewrite nth_error_upd_ne by exact Q. exact Ei.
    - destruct (IH cs H) as [F N]. split; [exact F|]. intros i c Ei. destruct (Nat.eq_dec x i) as [Q|Q]; [subst i; congruence|]. apply N, Ei.
  Qed.
End Race.
