(** Arithmetic set-up and list lemmas shared by the proofs. *)
From Coq Require Export Lia ZifyBool ZifyNat ZifyN.
From Verif Require Import Model.Base.
Ltac Zify.zify_post_hook ::= Z.div_mod_to_equations.

Global Arguments N.add : simpl never.
Global Arguments N.mul : simpl never.
Global Arguments N.sub : simpl never.
Global Arguments N.modulo : simpl never.
Global Arguments N.div : simpl never.
Global Arguments N.shiftl : simpl never.
Global Arguments N.shiftr : simpl never.
Global Arguments N.lor : simpl never.
Global Arguments N.land : simpl never.
Global Arguments N.lxor : simpl never.
Global Arguments N.pow : simpl never.
Global Arguments N.eqb : simpl never.
Global Arguments N.ltb : simpl never.
Global Arguments N.leb : simpl never.
Global Arguments Z.add : simpl never.
Global Arguments Z.mul : simpl never.
Global Arguments Z.sub : simpl never.
Global Arguments Z.of_nat : simpl never.
Global Arguments Z.modulo : simpl never.
Global Arguments Z.div : simpl never.
Global Arguments N.of_nat : simpl never.
Global Arguments num_slots : simpl never.

Ltac inv H := inversion H; subst; clear H.

Section Lists.
  Context {A : Type}.
  Implicit Types l : list A.

  Lemma upd_length i (x : A) l : length (upd i x l) = length l.
  Proof. revert i; induction l as [|y r IH]; intros [|i]; simpl; auto. Qed.

  Lemma nth_error_upd_eq i (x : A) l : (i < length l)%nat -> nth_error (upd i x l) i = Some x.
  Proof. revert i; induction l as [|y r IH]; intros [|i] H; simpl in *; try lia; auto. apply IH; lia. Qed.

  Lemma nth_error_upd_ne i j (x : A) l : i <> j -> nth_error (upd i x l) j = nth_error l j.
  Proof.
    revert i j; induction l as [|y r IH]; intros [|i] [|j] H; simpl in *; try congruence; auto.
  Qed.

  Lemma nth_error_upd i j (x : A) l :
    nth_error (upd i x l) j = if (i =? j)%nat then (match nth_error l j with Some _ => Some x | None => None end)
                              else nth_error l j.
  Proof.
    destruct (Nat.eqb_spec i j) as [->|H].
    - destruct (nth_error l j) eqn:E.
      + apply nth_error_upd_eq. apply nth_error_Some. congruence.
      + apply nth_error_None in E. apply nth_error_None. rewrite upd_length. auto.
    - apply nth_error_upd_ne; auto.
  Qed.

  Lemma upd_app_r i (x : A) l1 l2 : (length l1 <= i)%nat -> upd i x (l1 ++ l2) = l1 ++ upd (i - length l1) x l2.
  Proof.
    revert i; induction l1 as [|y r IH]; intros i H; simpl in *.
    - f_equal. lia.
    - destruct i as [|i]; [lia|]. simpl. f_equal. rewrite IH by lia. f_equal.
  Qed.

  Lemma upd_app_l i (x : A) l1 l2 : (i < length l1)%nat -> upd i x (l1 ++ l2) = upd i x l1 ++ l2.
  Proof.
    revert i; induction l1 as [|y r IH]; intros [|i] H; simpl in *; try lia; auto.
    f_equal. apply IH; lia.
  Qed.

  Lemma upd_middle l1 (x y : A) l2 : upd (length l1) x (l1 ++ y :: l2) = l1 ++ x :: l2.
  Proof. rewrite upd_app_r by lia. rewrite Nat.sub_diag. reflexivity. Qed.

  Lemma upd_same i (x : A) l : nth_error l i = Some x -> upd i x l = l.
  Proof. revert i; induction l as [|y r IH]; intros [|i] H; simpl in *; try congruence. f_equal; auto. Qed.

  Lemma nth_error_split_at i (x : A) l : nth_error l i = Some x ->
    exists l1 l2, l = l1 ++ x :: l2 /\ length l1 = i.
  Proof. apply nth_error_split. Qed.

  Lemma firstn_app_exact l1 l2 n : n = length l1 -> firstn n (l1 ++ l2) = l1.
  Proof. intros ->. rewrite firstn_app, Nat.sub_diag, firstn_all. simpl. apply app_nil_r. Qed.

  Lemma skipn_app_exact l1 l2 n : n = length l1 -> skipn n (l1 ++ l2) = l2.
  Proof. intros ->. rewrite skipn_app, Nat.sub_diag, skipn_all. reflexivity. Qed.

  Lemma nth_error_ext' l1 l2 : (forall i, nth_error l1 i = nth_error l2 i) -> l1 = l2.
  Proof.
    revert l2; induction l1 as [|x r IH]; intros [|y r2] H; auto.
    - specialize (H O); discriminate.
    - specialize (H O); discriminate.
    - pose proof (H O) as H0; simpl in H0. inv H0. f_equal. apply IH. intros i. apply (H (S i)).
  Qed.
End Lists.

Lemma Forall2_impl {A B} (P Q : A -> B -> Prop) l1 l2 :
  (forall a b, P a b -> Q a b) -> Forall2 P l1 l2 -> Forall2 Q l1 l2.
Proof. intros I F. induction F; constructor; auto. Qed.
Lemma Forall2_nth {A B} (P : A -> B -> Prop) l1 l2 i a b : Forall2 P l1 l2 ->
  nth_error l1 i = Some a -> nth_error l2 i = Some b -> P a b.
Proof.
  intros F. revert i. induction F as [|x y l1 l2 Pxy F IH]; intros [|i] E1 E2; cbn [nth_error] in *; try discriminate.
  - congruence.
  - eauto.
Qed.
Lemma Forall2_len {A B} (P : A -> B -> Prop) l1 l2 : Forall2 P l1 l2 -> length l1 = length l2.
Proof. intros F. induction F; cbn [length]; congruence. Qed.
