(** Bloom filters: C50. *)
From Verif Require Import Model.Base Model.Bloom Proof.Tactics Proof.BloomP.
Local Open Scope N_scope.

(** C50: "After adding a value, Has reports it, whatever is added later, and union with
    another set keeps it."

    The filter: all sizes, hash counts, sets and values. *)
Fixpoint adds (b : fnv32) (d : bytes) (vs : list N) : result bytes :=
  match vs with [] => Ok d | v :: r => do! d <- add b d v; adds b d r end.
Lemma adds_within b vs : forall d d', adds b d vs = Ok d' -> within d d'.
Proof.
  induction vs as [|v r IH]; intros d d' H; cbn [adds] in H; [injection H as <-; apply within_refl|].
  destruct (add b d v) as [d1| | |] eqn:A; try discriminate H. cbn [bind] in H.
  eapply within_trans; [apply (add_spec _ _ _ _ A)|apply IH, H].
Qed.
Theorem C50_added_is_reported b d v later d1 d2 :
  add b d v = Ok d1 -> adds b d1 later = Ok d2 -> has b d2 v = Ok true.
Proof. intros A L. eapply within_has; [exact (adds_within _ _ _ _ L)|apply (add_spec _ _ _ _ A)]. Qed.
Print Assumptions C50_added_is_reported.
Theorem C50_union_keeps b t s t' v : union t s = Ok t' ->
  (has_post b t v = Ok true -> has_post b t' v = Ok true) /\
  (length s = length (bp_set t) -> has b s v = Ok true -> has_post b t' v = Ok true).
Proof.
  unfold union, has_post. intros H. destruct (zip_set N.lor (bp_set t) s) as [d| | |] eqn:A; try discriminate H.
  injection H as <-. destruct (zip_lor _ _ _ A) as [W W2]. split; [apply within_has, W|]. intros L. apply within_has, W2, L.
Qed.
Print Assumptions C50_union_keeps.
(** Adding to a set of the filter's size goes through, for sizes below 2^29 bytes. *)
Theorem C50_adding_succeeds b d v : (0 < fl_mbytes b < 536870912)%Z -> (Z.of_nat (length d) = fl_mbytes b)%Z ->
  exists d', add b d v = Ok d' /\ length d' = length d.
Proof.
  intros S L. destruct (add_ok b d v (sane_sizes b S) L) as [d' A]. exists d'. split; [exact A|].
  destruct (add_spec _ _ _ _ A) as [[-> _] _]. reflexivity.
Qed.
Print Assumptions C50_adding_succeeds.
(** For other sizes it can panic: the number of bits is computed modulo 2^32. *)
Theorem C50_large_filter_panics b d v : (fl_mbytes b = 536870912)%Z -> (0 < fl_k b < 4294967296)%Z -> add b d v = Panic.
Proof.
  intros M K. unfold add, ones. assert (exists n, N.to_nat (u32_of_int (fl_k b)) = S n) as [n ->].
  { exists (pred (N.to_nat (u32_of_int (fl_k b)))). unfold u32_of_int. rewrite Z.mod_small by lia. lia. }
  cbn [ones_from]. unfold clamp. rewrite M. reflexivity.
Qed.
Print Assumptions C50_large_filter_panics.

(** Post sets: every post added is reported, as are those of sets of the same size joined to
    it, after any history of AddPost and Union from an empty or full set.  AddPost does
    nothing when the post is the last one added. *)
Theorem C50_posts_partial b t ops t' : bp_init b = Ok t \/ bp_ones b = Ok t ->
  Forall growing ops -> bops b t ops = Ok t' ->
  (forall v, In (BAdd v) ops -> has_post b t' v = Ok true) /\
  (forall s v, In (BUnion s) ops -> Z.of_nat (length s) = fl_mbytes b -> has b s v = Ok true -> has_post b t' v = Ok true).
Proof.
  intros S G H. destruct (starts_recorded b t S) as [R L]. destruct (bops_spec b ops t t' G R H) as (_ & _ & A & U).
  split; [exact A|]. intros s v I Ls. apply within_has, U; [exact I|lia].
Qed.
Print Assumptions C50_posts_partial.
(** Not after an Intersect: adding the last post again does nothing although the
    intersection has removed it. *)
Theorem C50_posts_refuted :
  ~ (forall b t ops v t', bp_init b = Ok t -> bops b t (ops ++ [BAdd v]) = Ok t' -> has_post b t' v = Ok true).
Proof.
  intros H.
  assert (exists t', bops (MkFnv32 2 1) (MkBposts 0 0 [0]) [BAdd 5; BIntersect [0]; BAdd 5] = Ok t' /\
    has_post (MkFnv32 2 1) t' 5 = Ok false) as (t' & E & F) by (eexists; vm_compute; split; reflexivity).
  specialize (H (MkFnv32 2 1) (MkBposts 0 0 [0]) [BAdd 5; BIntersect [0]] 5 t' eq_refl E). congruence.
Qed.
Print Assumptions C50_posts_refuted.

Example C50_example : exists t t', bp_init (MkFnv32 3 4) = Ok t /\
  bops (MkFnv32 3 4) t [BAdd 7; BUnion [0; 16; 0; 1]; BAdd 7; BAdd 9] = Ok t' /\
  has_post (MkFnv32 3 4) t' 7 = Ok true /\ has_post (MkFnv32 3 4) t' 9 = Ok true /\ has_post (MkFnv32 3 4) t' 10 = Ok false.
Proof. do 2 eexists. vm_compute. repeat split. Qed.
