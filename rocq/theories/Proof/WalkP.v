(** The index command's walk. *)
From Coq Require Import FinFun.
From Verif Require Import Model.Base Model.Path Model.Index Model.Walk Spec.Paths Spec.Tree
  Proof.Tactics Proof.PathP Proof.CleanP.
Local Open Scope N_scope.

Lemma hidden_dot n : hidden n = true <-> dot_name n.
Proof.
  unfold dot_name. split.
  - destruct n as [|c [|d r]]; cbn [hidden]; try discriminate. intros E. apply N.eqb_eq in E. subst c. exists d, r. reflexivity.
  - intros (c & r & ->). reflexivity.
Qed.
Lemma hidden_no n : hidden n = false <-> ~ dot_name n.
Proof. rewrite <- hidden_dot. destruct (hidden n); split; congruence. Qed.

(** Induction over trees. *)
Lemma tree_rect' (P : tree -> Prop) :
  (forall o, P (Leaf o)) -> P (Dir None) -> (forall es, Forall (fun e => P (snd e)) es -> P (Dir (Some es))) ->
  forall t, P t.
Proof.
  intros HL HN HD. fix IH 1. intros [o|[es|]]; [apply HL| |apply HN].
  apply HD. induction es as [|e es IHes]; constructor; [apply IH|exact IHes].
Qed.

(** The visible leaves in the order of the walk. *)
Fixpoint leaves (t : tree) : list (list bytes * leaf) :=
  match t with
  | Leaf o => [([], o)]
  | Dir None => []
  | Dir (Some es) =>
      flat_map (fun e => if hidden (fst e) then []
                         else map (fun x => (fst e :: fst x, snd x)) (leaves (snd e))) es
  end.

Lemma leaves_iff t cs o : In (cs, o) (leaves t) <-> file_at t cs o /\ visible cs.
Proof.
  revert cs o. induction t as [o0| |es IH] using tree_rect'; intros cs o.
  - cbn [leaves]. split.
    + intros [E|[]]. inv E. split; constructor.
    + intros [H _]. inv H. left. reflexivity.
  - cbn [leaves]. split; [intros []|]. intros [H _]. inv H.
  - cbn [leaves]. rewrite in_flat_map. rewrite Forall_forall in IH. split.
    + intros ((n & t) & Hi & Hx). cbn [fst snd] in Hx. destruct (hidden n) eqn:Eh; [contradiction|].
      apply in_map_iff in Hx. destruct Hx as ((cs' & o') & E & Hx). cbn [fst snd] in E. inv E.
      apply (IH (n, t) Hi) in Hx. destruct Hx as [H1 H2]. split.
      * econstructor; eassumption.
      * constructor; [apply hidden_no; exact Eh|exact H2].
    + intros [H V]. inv H. inv V. exists (n, t). split; [assumption|]. cbn [fst snd].
      match goal with H : ~ dot_name n |- _ => apply hidden_no in H; rewrite H end. apply in_map_iff. exists (cs0, o). split; [reflexivity|].
      apply (IH (n, t)); [assumption|]. split; assumption.
Qed.

Lemma NoDup_app_iff' {A} (a b : list A) : NoDup a -> NoDup b -> (forall x, In x a -> ~ In x b) -> NoDup (a ++ b).
Proof.
  intros Ha Hb. induction Ha as [|x a Hx Ha IH]; intros H; [exact Hb|]. cbn [app]. constructor.
  - intros Hi. apply in_app_or in Hi. destruct Hi as [Hi|Hi]; [contradiction|]. apply (H x); [left; reflexivity|exact Hi].
  - apply IH. intros y Hy. apply H. right. exact Hy.
Qed.
Lemma NoDup_flat_map {A B} (f : A -> list B) l :
  NoDup l -> (forall a, In a l -> NoDup (f a)) ->
  (forall a a' b, In a l -> In a' l -> In b (f a) -> In b (f a') -> a = a') -> NoDup (flat_map f l).
Proof.
  intros Hl. induction Hl as [|a l Ha Hl IH]; intros H1 H2; cbn [flat_map]; [constructor|].
  apply NoDup_app_iff'; [apply H1; left; reflexivity| |].
  - apply IH; intros; [apply H1; right; assumption|]. eapply H2; try (right; eassumption); eassumption.
  - intros b Hb Hb'. apply in_flat_map in Hb'. destruct Hb' as (a' & Ha' & Hb').
    assert (a = a') by (eapply H2; [left; reflexivity|right; exact Ha'|exact Hb|exact Hb']). subst a'. contradiction.
Qed.

Lemma fst_unique {A B} (l : list (A * B)) a b b' : NoDup (map fst l) -> In (a, b) l -> In (a, b') l -> b = b'.
Proof.
  induction l as [|[x y] l IH]; intros H H1 H2; [contradiction|]. cbn [map fst] in H. inv H.
  destruct H1 as [H1|H1], H2 as [H2|H2].
  - congruence.
  - inv H1. exfalso. apply H4. change a with (fst (a, b')). apply in_map. exact H2.
  - inv H2. exfalso. apply H4. change a with (fst (a, b)). apply in_map. exact H1.
  - apply IH; assumption.
Qed.
Lemma map_flat_map {A B C} (g : B -> C) (f : A -> list B) l : map g (flat_map f l) = flat_map (fun a => map g (f a)) l.
Proof. induction l as [|a l IH]; [reflexivity|]. cbn [flat_map]. rewrite map_app, IH. reflexivity. Qed.

Lemma leaves_once t : good_tree t -> NoDup (map fst (leaves t)).
Proof.
  induction t as [o| |es IH] using tree_rect'; intros G.
  - cbn [leaves map fst]. constructor; [intros []|constructor].
  - constructor.
  - inversion G as [| |es' H1 H2]; subst. cbn [leaves]. rewrite map_flat_map. rewrite Forall_forall in IH, H2.
    assert (forall e b, In b (map fst (if hidden (fst e) then [] else map (fun x : list bytes * leaf => (fst e :: fst x, snd x)) (leaves (snd e)))) ->
      exists r, b = fst e :: r) as Hb.
    { intros e b Hi. destruct (hidden (fst e)); [contradiction|]. rewrite map_map in Hi. cbn [fst] in Hi.
      apply in_map_iff in Hi. destruct Hi as (x & E & _). eauto. }
    apply NoDup_flat_map.
    + eapply NoDup_map_inv. exact H1.
    + intros e He. destruct (hidden (fst e)); [constructor|]. rewrite map_map. cbn [fst].
      rewrite <- (map_map fst (fun r => fst e :: r)). apply Injective_map_NoDup; [intros x y E; inv E; reflexivity|].
      apply IH; [exact He|]. apply (H2 e He).
    + intros [n t] [n' t'] b He He' Hi Hi'. apply Hb in Hi. apply Hb in Hi'. cbn [fst] in *.
      destruct Hi as [r ->], Hi' as [r' E]. inv E. f_equal. eapply fst_unique; eassumption.
Qed.

(** Which document is added for which leaf. *)
Definition doc_of (cwd path : bytes) (d : doc) (x : list bytes * leaf) : Prop :=
  spec_abs cwd (d_path d) = spec_abs cwd path ++ fst x /\ snd x = Reads (d_dat d)
  /\ d_start d = 0 /\ d_end d = u32 (nlen (d_dat d)).

Inductive subseq {A} : list A -> list A -> Prop :=
| Sub_nil l : subseq [] l
| Sub_skip x l m : subseq l m -> subseq l (x :: m)
| Sub_take x l m : subseq l m -> subseq (x :: l) (x :: m).
Lemma subseq_refl {A} (l : list A) : subseq l l.
Proof. induction l; constructor; assumption. Qed.
Lemma subseq_app {A} (a b c d : list A) : subseq a b -> subseq c d -> subseq (a ++ c) (b ++ d).
Proof.
  intros H1 H2. induction H1 as [l|x l m H1 IH|x l m H1 IH]; cbn [app]; [|constructor; assumption|constructor; assumption].
  induction l; cbn [app]; [assumption|constructor; assumption].
Qed.
Lemma subseq_map {A B} (f : A -> B) a b : subseq a b -> subseq (map f a) (map f b).
Proof. induction 1; cbn [map]; constructor; assumption. Qed.
Lemma subseq_in {A} (a b : list A) x : subseq a b -> In x a -> In x b.
Proof. induction 1; cbn [In]; intuition. Qed.
Lemma subseq_NoDup {A} (a b : list A) : subseq a b -> NoDup b -> NoDup a.
Proof.
  induction 1; intros H1; [constructor| |].
  - inv H1. auto.
  - inv H1. constructor; [|auto]. intros Hi. apply H3. eapply subseq_in; eassumption.
Qed.


Section Walk.
  Variables (add_ok : bytes -> bool) (fixed : bool) (cwd : bytes).
  Notation walk := (walk_dir add_ok fixed).

  Definition vis (name : bytes) (t : tree) := if hidden name then [] else leaves t.

  Lemma Forall2_doc_of path n news fs : good_name n ->
    Forall2 (doc_of cwd (join_path path n)) news fs ->
    Forall2 (doc_of cwd path) news (map (fun x => (n :: fst x, snd x)) fs).
  Proof.
    intros Hn. induction 1 as [|d x news fs (H1 & H2) H IH]; cbn [map]; constructor; [|exact IH].
    split; [|exact H2]. cbn [fst]. rewrite H1, join_path_spec by exact Hn. rewrite <- app_assoc. reflexivity.
  Qed.

  Theorem walk_spec t : good_tree t -> forall path name s s' r, walk t path name s = (s', r) ->
    exists news fs, snd s' = snd s ++ news /\ Forall2 (doc_of cwd path) news fs /\ subseq fs (vis name t)
      /\ (fst s = true -> fst s' = true)
      /\ (hidden name = true -> fst s' = fst s)
      /\ (hidden name = false -> (forall p, add_ok p = true) -> openable t -> fst s' = false ->
           r = WNil /\ fs = leaves t /\ listable t)
      /\ (hidden name = false -> (forall p, add_ok p = true) -> (forall cs o, visible cs -> file_at t cs o -> exists dat, o = Reads dat) ->
           listable t -> fst s' = fst s /\ r = WNil)
      /\ (hidden name = true -> r = WNil).
  Proof.
    unfold vis. induction t as [o| |es IH] using tree_rect'; intros G path name s s' r E; cbn [walk_dir] in E.
    - unfold walk_fn_leaf in E. destruct (hidden name) eqn:Eh.
      { inv E. exists [], []. rewrite app_nil_r. repeat split; try constructor; auto; discriminate. }
      destruct o as [| |dat].
      + inv E. exists [], []. rewrite app_nil_r. repeat split; try constructor; auto; try discriminate.
        all: try (exfalso; eapply (H1 []); constructor; fail).
        all: match goal with H : forall cs o, visible cs -> _ |- _ => destruct (H [] CannotOpen ltac:(constructor) ltac:(constructor)); discriminate end.
      + inv E. exists [], []. cbn [fst snd]. rewrite app_nil_r. repeat split; try constructor; auto; try discriminate.
        all: match goal with H : forall cs o, visible cs -> _ |- _ => destruct (H [] CannotRead ltac:(constructor) ltac:(constructor)); discriminate end.
      + destruct (add_ok path) eqn:Ea.
        * inv E. cbn [fst snd]. exists [MkDoc path 0 (u32 (nlen dat)) dat], [([], Reads dat)].
          split; [reflexivity|]. split.
          { constructor; [|constructor]. unfold doc_of. cbn [fst snd d_path d_dat d_start d_end].
            rewrite app_nil_r. repeat split. }
          split; [apply subseq_refl|]. repeat split; auto; try discriminate.
          intros cs _ Hc. inv Hc.
        * inv E. exists [], []. rewrite app_nil_r. repeat split; try constructor; auto; try discriminate.
          all: congruence.
    - destruct (hidden name) eqn:Eh.
      { inv E. exists [], []. rewrite app_nil_r. repeat split; try constructor; auto; discriminate. }
      inv E. exists [], []. cbn [fst snd]. rewrite app_nil_r. repeat split; try constructor; auto; try discriminate.
      all: exfalso; eapply (H2 []); constructor.
    - destruct (hidden name) eqn:Eh.
      { inv E. exists [], []. rewrite app_nil_r. repeat split; try constructor; auto; discriminate. }
      inversion G as [| |es' H1 H2]; subst. clear H1 G. revert s s' r E. cbn [leaves].
      match goal with |- forall s s' r, ?F es s = _ -> _ => set (go := F) end.
      induction es as [|[n t] es IHes]; intros s s' r E; cbn in E.
      + inv E. exists [], []. rewrite app_nil_r. repeat split; try constructor; auto.
        intros cs _ Hc. inv Hc. contradiction.
      + inversion IH as [|? ? H1 H3]; subst. inversion H2 as [|? ? [Hn Hg] H5]; subst. clear IH H2. cbn [fst snd] in *.
        destruct (walk t (join_path path n) n s) as [s1 r1] eqn:E1.
        destruct (H1 Hg _ _ _ _ _ E1) as (n1 & f1 & A1 & B1 & C1 & D1 & D2 & D3 & D4 & D5).
        set (f1' := map (fun x : list bytes * leaf => (n :: fst x, snd x)) f1).
        assert (Forall2 (doc_of cwd path) n1 f1') as B1' by (apply Forall2_doc_of; assumption).
        cbn [flat_map fst snd].
        assert (subseq f1' (if hidden n then [] else map (fun x : list bytes * leaf => (n :: fst x, snd x)) (leaves t))) as C1'.
        { destruct (hidden n); [|apply subseq_map; exact C1]. inv C1. constructor. }
        assert (openable (Dir (Some ((n, t) :: es))) -> hidden n = false -> openable t) as O1.
        { intros Ho Ehn cs Hv Hf. apply (Ho (n :: cs)); [constructor; [apply hidden_no; exact Ehn|exact Hv]|].
          econstructor; [left; reflexivity|exact Hf]. }
        assert (openable (Dir (Some ((n, t) :: es))) -> openable (Dir (Some es))) as O2.
        { intros Ho cs Hv Hf. apply (Ho cs Hv). inv Hf. econstructor; [right; eassumption|assumption]. }
        assert (listable (Dir (Some ((n, t) :: es))) -> hidden n = false -> listable t) as L1.
        { intros Ho Ehn cs Hv Hf. apply (Ho (n :: cs)); [constructor; [apply hidden_no; exact Ehn|exact Hv]|].
          econstructor; [left; reflexivity|exact Hf]. }
        assert (listable (Dir (Some ((n, t) :: es))) -> listable (Dir (Some es))) as L2.
        { intros Ho cs Hv Hf. apply (Ho cs Hv). inv Hf. econstructor; [right; eassumption|assumption]. }
        assert (r1 = WNil \/ (r1 <> WNil /\ s' = s1)) as [->|[Hr ->]].
        { destruct r1; [left; reflexivity|right|right]; inv E; (split; [discriminate|reflexivity]). }
        * destruct (IHes H3 H5 _ _ _ E) as (n2 & f2 & A2 & B2 & C2 & F1 & F2 & F3 & F4 & F5).
          exists (n1 ++ n2), (f1' ++ f2). rewrite A2, A1, <- app_assoc.
          split; [reflexivity|]. split; [apply Forall2_app; assumption|].
          split; [apply subseq_app; assumption|].
          split; [auto|]. split; [discriminate|].
          split.
          { intros _ Ha Ho He. destruct (F3 eq_refl Ha (O2 Ho) He) as (G1 & G2 & G3). split; [exact G1|].
            assert (fst s1 = false) as He1 by (destruct (fst s1); [rewrite F1 in He by reflexivity; discriminate|reflexivity]).
            destruct (hidden n) eqn:Ehn.
            - split.
              + rewrite G2. inv C1'. reflexivity.
              + intros cs Hv Hc. inversion Hc as [|? ? ? ? H2 Hc']; subst. destruct H2 as [H2|H2].
                * inv H2. inversion Hv as [|? ? H4]; subst. apply H4. apply hidden_dot. exact Ehn.
                * eapply G3; [exact Hv|]. econstructor; eassumption.
            - destruct (D3 eq_refl Ha (O1 Ho eq_refl) He1) as (_ & G4 & G5). split.
              + unfold f1'. rewrite G2, G4. reflexivity.
              + intros cs Hv Hc. inversion Hc as [|? ? ? ? H2 Hc']; subst. destruct H2 as [H2|H2].
                * inv H2. inv Hv. eapply G5; eassumption.
                * eapply G3; [exact Hv|]. econstructor; eassumption. }
          split; [|discriminate].
          intros _ Ha Ho Hl.
          destruct (F4 eq_refl Ha) as [G1 G2].
          { intros cs o Hv Hf. apply (Ho cs o Hv). inv Hf. econstructor; [right; eassumption|assumption]. }
          { exact (L2 Hl). }
          split; [|exact G2]. rewrite G1. destruct (hidden n) eqn:Ehn; [exact (D2 eq_refl)|].
          apply (D4 eq_refl Ha); [|exact (L1 Hl eq_refl)].
          intros cs o Hv Hf. apply (Ho (n :: cs) o); [constructor; [apply hidden_no; exact Ehn|exact Hv]|].
          econstructor; [left; reflexivity|exact Hf].
        * exists n1, f1'. split; [exact A1|]. split; [exact B1'|]. split.
          { rewrite <- (app_nil_r f1'). apply subseq_app; [exact C1'|constructor]. }
          split; [exact D1|]. split; [discriminate|].
          destruct (hidden n) eqn:Ehn; [exfalso; exact (Hr (D5 eq_refl))|].
          split; [|split; [|discriminate]].
          { intros _ Ha Ho He. destruct (D3 eq_refl Ha (O1 Ho eq_refl) He) as (G1 & _). contradiction. }
          { intros _ Ha Ho Hl. destruct (D4 eq_refl Ha) as [_ G]; [|exact (L1 Hl eq_refl)|contradiction].
            intros cs o Hv Hf. apply (Ho (n :: cs) o); [constructor; [apply hidden_no; exact Ehn|exact Hv]|].
            econstructor; [left; reflexivity|exact Hf]. }
  Qed.
End Walk.

Lemma drop_slashes_spec r : exists k, r = repeat 47 k ++ drop_slashes r
  /\ match drop_slashes r with c :: _ :: _ => c <> 47 | _ => True end.
Proof.
  induction r as [|c r IH]; [exists O; split; [reflexivity|exact I]|].
  destruct r as [|d r]; [exists O; split; [reflexivity|exact I]|].
  change (drop_slashes (c :: d :: r)) with (if c =? sep then drop_slashes (d :: r) else c :: d :: r).
  unfold sep. destruct (N.eqb_spec c 47) as [->|Hc].
  - destruct IH as (k & E & H). exists (S k). split; [|exact H]. cbn [repeat app]. rewrite <- E. reflexivity.
  - exists O. split; [reflexivity|exact Hc].
Qed.
Lemma up_to_slash_spec r : exists rest, r = up_to_slash r ++ rest /\ ~ In 47 (up_to_slash r)
  /\ (rest = [] \/ exists b, rest = 47 :: b).
Proof.
  induction r as [|c r (rest & E & H1 & H2)]; [exists []; repeat split; auto|]. cbn [up_to_slash]. unfold sep.
  destruct (N.eqb_spec c 47) as [->|Hc].
  - exists (47 :: r). repeat split; [intros []|right; eauto].
  - exists rest. repeat split; [cbn [app]; rewrite <- E; reflexivity| |exact H2].
    intros [|]; [congruence|contradiction].
Qed.
Lemma rev_repeat {A} (x : A) k : rev (repeat x k) = repeat x k.
Proof.
  induction k as [|k IH]; [reflexivity|]. cbn [repeat rev]. rewrite IH.
  clear IH. induction k as [|k IH]; [reflexivity|]. cbn [repeat app]. rewrite IH. reflexivity.
Qed.
Lemma base_hidden path : hidden (base_name path) = true -> dotted path.
Proof.
  intros H. apply hidden_dot in H. unfold base_name in H.
  destruct (drop_slashes_spec (rev path)) as (k & E & Hc).
  destruct (drop_slashes (rev path)) as [|c t]; [destruct H as (? & ? & H); discriminate|].
  destruct (up_to_slash_spec t) as (rest & Et & Hs & Hr).
  exists (rev rest), (rev (c :: up_to_slash t)), k. split; [|split; [exact H|split]].
  - apply (f_equal (@rev N)) in E. rewrite rev_involutive, rev_app_distr, rev_repeat in E. rewrite E, app_assoc. f_equal.
    rewrite <- rev_app_distr. cbn [app]. rewrite <- Et. reflexivity.
  - rewrite <- in_rev. destruct t as [|d t].
    + cbn [up_to_slash rev app] in H. destruct H as (? & ? & H). discriminate.
    + intros [|]; [congruence|contradiction].
  - destruct Hr as [->|(b & ->)]; [left; reflexivity|right]. exists (rev b). reflexivity.
Qed.

Section Run.
  Variables (add_ok : bytes -> bool) (fixed : bool) (cwd : bytes).

  (** What one path gives. *)
  Theorem do_path_spec t path docs err docs' : good_tree t -> do_path add_ok fixed (Some t) path docs = (err, docs') ->
    exists news, docs' = docs ++ news
      /\ NoDup (map (fun d => spec_abs cwd (d_path d)) news)
      /\ (forall d, In d news -> exists cs dat, visible cs /\ file_at t cs (Reads dat) /\ doc_for cwd path cs dat d)
      /\ (~ dotted path -> (forall p, add_ok p = true) -> openable t -> err = false ->
          forall cs o, visible cs -> file_at t cs o -> exists d dat, o = Reads dat /\ In d news /\ doc_for cwd path cs dat d)
      /\ (~ dotted path -> (forall p, add_ok p = true) -> openable t -> err = false -> listable t)
      /\ (~ dotted path -> (forall p, add_ok p = true) ->
          (forall cs o, visible cs -> file_at t cs o -> exists dat, o = Reads dat) -> listable t -> err = false).
  Proof.
    intros G E. unfold do_path in E.
    destruct (walk_dir add_ok fixed t path (base_name path) (false, docs)) as [[e ds] r] eqn:Ew.
    cbn [fst] in E. inv E.
    destruct (walk_spec add_ok fixed cwd t G _ _ _ _ _ Ew) as (news & fs & A & B & C & D1 & D2 & D3 & D4 & D5).
    cbn [fst snd] in *.
    assert (subseq fs (leaves t)) as C'.
    { unfold vis in C. destruct (hidden (base_name path)); [inv C; constructor|exact C]. }
    assert (~ dotted path -> hidden (base_name path) = false) as Hh.
    { intros Hd. destruct (hidden (base_name path)) eqn:Eh; [|reflexivity]. exfalso. apply Hd, base_hidden, Eh. }
    exists news. split; [exact A|]. split; [|split; [|split; [|split]]].
    - assert (map (fun d => spec_abs cwd (d_path d)) news = map (fun cs => spec_abs cwd path ++ cs) (map fst fs)) as ->.
      { clear - B. induction B as [|d x news fs (H1 & _) B IH]; [reflexivity|]. cbn [map]. rewrite H1, IH. reflexivity. }
      apply Injective_map_NoDup; [intros a b Ei; apply app_inv_head in Ei; exact Ei|].
      eapply subseq_NoDup; [apply subseq_map; exact C'|]. apply leaves_once. exact G.
    - intros d Hd. assert (exists x, In x fs /\ doc_of cwd path d x) as ((cs & o) & Hx & (H1 & H2 & H3 & H4)).
      { clear - B Hd. induction B as [|d' x news fs H B IH]; [contradiction|]. destruct Hd as [->|Hd].
        - exists x. split; [left; reflexivity|exact H].
        - destruct (IH Hd) as (y & Hy & Hy'). exists y. split; [right; exact Hy|exact Hy']. }
      cbn [fst snd] in *. subst o. apply (subseq_in _ _ _ C') in Hx. apply leaves_iff in Hx. destruct Hx as [Hf Hv].
      exists cs, (d_dat d). split; [exact Hv|]. split; [exact Hf|]. repeat split; assumption.
    - intros Hd Ha Ho He cs o Hv Hf. destruct (D3 (Hh Hd) Ha Ho He) as (_ & -> & _).
      assert (In (cs, o) (leaves t)) as Hx by (apply leaves_iff; split; assumption).
      assert (exists d, In d news /\ doc_of cwd path d (cs, o)) as (d & Hdn & (H1 & H2 & H3 & H4)).
      { clear - B Hx. induction B as [|d' x news fs H B IH]; [contradiction|]. destruct Hx as [->|Hx].
        - exists d'. split; [left; reflexivity|exact H].
        - destruct (IH Hx) as (y & Hy & Hy'). exists y. split; [right; exact Hy|exact Hy']. }
      exists d, (d_dat d). split; [exact H2|]. split; [exact Hdn|]. repeat split; assumption.
    - intros Hd Ha Ho He. apply (D3 (Hh Hd) Ha Ho He).
    - intros Hd Ha Ho Hl. apply (D4 (Hh Hd) Ha Ho Hl).
  Qed.

  (** And the command. *)
  Theorem do_paths_sound lstat paths : forall s s', (forall p t, lstat p = Some t -> good_tree t) ->
    do_paths add_ok fixed lstat paths s = s' -> forall d, In d (snd s') ->
    In d (snd s) \/ exists p t cs dat, In p paths /\ lstat p = Some t /\ visible cs /\ file_at t cs (Reads dat) /\ doc_for cwd p cs dat d.
  Proof.
    induction paths as [|p paths IH]; intros s s' G E d Hd; cbn [do_paths] in E.
    - subst s'. left. exact Hd.
    - destruct (do_path add_ok fixed (lstat p) p (snd s)) as [e docs] eqn:Ep.
      destruct (IH _ _ G E d Hd) as [H|(q & t & cs & dat & H1 & H2)].
      + cbn [snd] in H. destruct (lstat p) as [t|] eqn:El.
        * destruct (do_path_spec t p _ _ _ (G _ _ El) Ep) as (news & -> & _ & H1 & _).
          apply in_app_or in H. destruct H as [H|H]; [left; exact H|right].
          destruct (H1 d H) as (cs & dat & Hc). exists p, t, cs, dat. split; [left; reflexivity|]. split; [exact El|exact Hc].
        * cbn [do_path] in Ep. inv Ep. left. exact H.
      + right. exists q, t, cs, dat. split; [right; exact H1|exact H2].
  Qed.
  Theorem do_paths_complete lstat paths : forall s docs, (forall p t, lstat p = Some t -> good_tree t) ->
    (forall p, add_ok p = true) ->
    (forall p t, In p paths -> lstat p = Some t -> ~ dotted p /\ openable t) ->
    do_paths add_ok fixed lstat paths s = (false, docs) ->
    fst s = false /\ (forall d, In d (snd s) -> In d docs) /\ forall p, In p paths -> exists t, lstat p = Some t /\ listable t
      /\ forall cs o, visible cs -> file_at t cs o -> exists d dat, o = Reads dat /\ In d docs /\ doc_for cwd p cs dat d.
  Proof.
    induction paths as [|p paths IH]; intros s docs G Ha Ho E; cbn [do_paths] in E.
    - subst s. repeat split; auto. intros p [].
    - destruct (do_path add_ok fixed (lstat p) p (snd s)) as [e ds] eqn:Ep.
      destruct (IH _ _ G Ha ltac:(intros q t Hq; apply Ho; right; exact Hq) E) as (H1 & H2 & H3). cbn [fst snd] in H1, H2.
      apply orb_false_elim in H1. destruct H1 as [H1 ->].
      destruct (lstat p) as [t|] eqn:El; [|discriminate].
      destruct (do_path_spec t p _ _ _ (G _ _ El) Ep) as (news & -> & _ & _ & C1 & C2 & _).
      destruct (Ho p t (or_introl eq_refl) El) as [Hd Hop].
      split; [exact H1|]. split; [intros d Hi; apply H2, in_or_app; left; exact Hi|].
      intros q [<-|Hq]; [|apply H3; exact Hq].
      exists t. split; [exact El|]. split; [exact (C2 Hd Ha Hop eq_refl)|].
      intros cs o Hv Hf. destruct (C1 Hd Ha Hop eq_refl cs o Hv Hf) as (d & dat & E1 & E2 & E3).
      exists d, dat. split; [exact E1|]. split; [apply H2, in_or_app; right; exact E2|exact E3].
  Qed.
  Theorem do_paths_no_error lstat paths : forall s, (forall p t, lstat p = Some t -> good_tree t) ->
    (forall p, add_ok p = true) -> fst s = false ->
    (forall p, In p paths -> ~ dotted p /\ exists t, lstat p = Some t /\ listable t
       /\ forall cs o, visible cs -> file_at t cs o -> exists dat, o = Reads dat) ->
    fst (do_paths add_ok fixed lstat paths s) = false.
  Proof.
    induction paths as [|p paths IH]; intros s G Ha Hs Ho; cbn [do_paths]; [exact Hs|].
    destruct (Ho p (or_introl eq_refl)) as (Hd & t & El & Hl & Hr). rewrite El.
    destruct (do_path add_ok fixed (Some t) p (snd s)) as [e ds] eqn:Ep.
    destruct (do_path_spec t p _ _ _ (G _ _ El) Ep) as (news & _ & _ & _ & _ & _ & C).
    rewrite (C Hd Ha Hr Hl), Hs. apply IH; [exact G|exact Ha|reflexivity|].
    intros q Hq. apply Ho. right. exact Hq.
  Qed.
End Run.
