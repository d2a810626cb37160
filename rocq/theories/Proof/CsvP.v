(** Reading comma-separated values. *)
From Coq Require Import Lia.
From Verif Require Import Model.Base Model.Utf8 Model.Csv Spec.Csv Proof.Tactics.
Local Open Scope N_scope.

Ltac eqs := repeat match goal with
  | |- context [(?a =? ?b)%N] => first [rewrite (proj2 (N.eqb_eq a b)) by (reflexivity || congruence) | rewrite (proj2 (N.eqb_neq a b)) by (assumption || congruence || discriminate || lia)]
  end.

(** * Line ends *)

Fixpoint lf (v : bytes) : bytes :=
  match v with
  | [] => []
  | c :: r => if c =? 13 then match r with [] => [13] | d :: _ => if d =? 10 then lf r else 13 :: lf r end else c :: lf r
  end.
Lemma lf_newlines v : newlines v (lf v).
Proof.
  assert (X : forall n v, (length v <= n)%nat -> newlines v (lf v)); [|exact (X _ v (le_n _))].
  clear v. induction n as [|n IH]; intros [|c v] L; try constructor; cbn [length] in L; [lia|].
  cbn [lf]. destruct (c =? 13) eqn:E.
  - apply N.eqb_eq in E. subst c. destruct v as [|d v].
    + constructor; [discriminate|constructor].
    + destruct (d =? 10) eqn:E.
      * apply N.eqb_eq in E. subst d. assert (A : lf (10 :: v) = 10 :: lf v) by reflexivity. rewrite A. constructor. apply IH. cbn [length] in L. lia.
      * apply N.eqb_neq in E. constructor; [intros r [= -> _]; congruence|apply IH; lia].
  - apply N.eqb_neq in E. constructor; [exact E|apply IH; lia].
Qed.
Lemma newlines_fun v w : newlines v w -> w = lf v.
Proof.
  induction 1 as [|v w H IH|v w Nl H IH|c v w Nc H IH].
  - reflexivity.
  - cbn [lf]. eqs. f_equal. exact IH.
  - cbn [lf]. eqs. destruct v as [|d v]; [subst w; reflexivity|].
    assert (d <> 10) by (intros ->; exact (Nl v eq_refl)). eqs. f_equal. exact IH.
  - cbn [lf]. eqs. f_equal. exact IH.
Qed.
Lemma lf_plain v : ~ In 13 v -> lf v = v.
Proof.
  induction v as [|c v IH]; intros H; [reflexivity|]. cbn [lf].
  assert (c <> 13) by (intros ->; apply H; left; reflexivity). eqs. f_equal. apply IH. intros X. apply H. right. exact X.
Qed.

Lemma norm_other c l : c <> 13 -> norm_line (c :: l) = c :: norm_line l.
Proof. intros H. cbn [norm_line]. eqs. reflexivity. Qed.
Lemma norm_cr l : l <> [] -> l <> [10] -> norm_line (13 :: l) = 13 :: norm_line l.
Proof.
  intros A B. cbn [norm_line]. eqs. destruct l as [|d [|e l]]; [congruence| |reflexivity].
  assert (d <> 10) by congruence. eqs. reflexivity.
Qed.
Lemma norm_app v l : ~ In 13 v -> norm_line (v ++ l) = v ++ norm_line l.
Proof.
  induction v as [|c v IH]; intros H; [reflexivity|]. cbn [app]. rewrite norm_other by (intros ->; apply H; left; reflexivity).
  f_equal. apply IH. intros X. apply H. right. exact X.
Qed.
Lemma norm_nil l : norm_line l = [] -> l = [] \/ l = [13].
Proof.
  destruct l as [|c r]; [left; reflexivity|]. cbn [norm_line]. destruct (c =? 13) eqn:E; [|discriminate]. apply N.eqb_eq in E. subst c.
  destruct r as [|d [|e r]]; [right; reflexivity| |discriminate]. destruct (d =? 10); discriminate.
Qed.
Lemma norm_length l : (length (norm_line l) <= length l)%nat.
Proof.
  induction l as [|c r IH]; [exact (le_n _)|]. cbn [norm_line length]. destruct (c =? 13); cbn [length]; [|lia].
  destruct r as [|d [|e r]]; cbn [length] in *; try lia. destruct (d =? 10); cbn [length] in *; lia.
Qed.

Lemma cut_line_other c r : c <> 10 -> cut_line (c :: r) = (c :: fst (cut_line r), snd (cut_line r)).
Proof. intros H. cbn [cut_line]. eqs. destruct (cut_line r). reflexivity. Qed.
Lemma cut_line_app v r : ~ In 10 v -> cut_line (v ++ r) = (v ++ fst (cut_line r), snd (cut_line r)).
Proof.
  induction v as [|c v IH]; intros H; [cbn [app]; destruct (cut_line r); reflexivity|]. cbn [app].
  rewrite cut_line_other by (intros ->; apply H; left; reflexivity). rewrite IH by (intros X; apply H; right; exact X). reflexivity.
Qed.
Lemma cut_line_all r : r = fst (cut_line r) ++ snd (cut_line r).
Proof.
  induction r as [|c r IH]; [reflexivity|]. cbn [cut_line]. destruct (c =? 10) eqn:E.
  - apply N.eqb_eq in E. subst c. reflexivity.
  - destruct (cut_line r) as [l rest]. cbn [fst snd app] in *. f_equal. exact IH.
Qed.
Lemma cut_line_some c r : fst (cut_line (c :: r)) <> [].
Proof. cbn [cut_line]. destruct (c =? 10); [discriminate|]. destruct (cut_line r). discriminate. Qed.
(** The line is not a carriage return alone unless the text is. *)
Lemma cut_line_cr r : fst (cut_line r) = [13] -> r = [13].
Proof.
  destruct r as [|c r]; [discriminate|]. cbn [cut_line]. destruct (c =? 10) eqn:E; [discriminate|].
  destruct r as [|d r]; [cbn [cut_line fst]; congruence|]. intros H. pose proof (cut_line_some d r) as X.
  destruct (cut_line (d :: r)) as [l rest]. cbn [fst] in *. inversion H. congruence.
Qed.
Lemma read_line_some c r : read_line (c :: r) = Some (norm_line (fst (cut_line (c :: r))), snd (cut_line (c :: r))).
Proof.
  unfold read_line. pose proof (cut_line_some c r) as X. destruct (cut_line (c :: r)) as [[|x l] rest]; cbn [fst snd] in *; [congruence|reflexivity].
Qed.
Lemma norm_some r : r <> [] -> r <> [13] -> norm_line (fst (cut_line r)) <> [].
Proof.
  intros A B H. destruct (norm_nil _ H) as [X|X].
  - destruct r; [congruence|]. exact (cut_line_some _ _ X).
  - exact (B (cut_line_cr _ X)).
Qed.

(** * A quoted field *)

Lemma quoted_char fuel c line rest acc : c <> 34 -> line <> [] -> quoted fuel (c :: line) rest acc = quoted fuel line rest (acc ++ [c]).
Proof.
  intros Hc Hl. destruct fuel as [|fuel]; [reflexivity|]. cbn [quoted cut_at]. eqs. destruct (cut_at 34 line) as [[pre l]|].
  - assert (A : (acc ++ [c]) ++ pre = acc ++ c :: pre) by (rewrite <- app_assoc; reflexivity). rewrite A. reflexivity.
  - destruct line as [|d line]; [congruence|]. assert (A : (acc ++ [c]) ++ d :: line = acc ++ c :: d :: line) by (rewrite <- app_assoc; reflexivity). rewrite A. reflexivity.
Qed.

(** What comes after a field. *)
Inductive tail_ok : bytes -> Prop :=
  | tail_nil : tail_ok []
  | tail_cr : tail_ok [13]
  | tail_end e t : line_end e -> tail_ok (e ++ t)
  | tail_comma t : tail_ok (44 :: t).
Definition after (acc tail : bytes) : result (bytes * option bytes * bytes) :=
  match tail with
  | [] => Ok (acc, None, [])
  | c :: t => if c =? 44 then Ok (acc, Some (norm_line (fst (cut_line t))), snd (cut_line t))
              else Ok (acc, None, if c =? 13 then tl t else t)
  end.

Lemma quoted_ok v d : doubled v d -> forall tail fuel acc, tail_ok tail -> (length (d ++ 34%N :: tail) < fuel)%nat ->
  quoted fuel (norm_line (fst (cut_line (d ++ 34 :: tail)))) (snd (cut_line (d ++ 34 :: tail))) acc = after (acc ++ lf v) tail.
Proof.
  induction 1 as [|v d D IH|c v d Nc D IH]; intros tail fuel acc Ht Hf.
  - cbn [app lf]. rewrite app_nil_r. rewrite cut_line_other by discriminate. cbn [fst snd]. rewrite norm_other by discriminate.
    destruct fuel as [|fuel]; [lia|]. cbn [quoted cut_at]. eqs. rewrite app_nil_r. inversion Ht as [| |e t He|t]; subst.
    + reflexivity.
    + reflexivity.
    + inversion He; subst; cbn [app cut_line fst snd norm_line N.eqb Pos.eqb blank drop_nl after tl]; reflexivity.
    + rewrite cut_line_other by discriminate. cbn [fst snd]. rewrite norm_other by discriminate. eqs. cbn [after]. eqs. reflexivity.
  - cbn [app] in *. rewrite cut_line_other by discriminate. cbn [fst snd]. rewrite cut_line_other by discriminate. cbn [fst snd].
    rewrite !norm_other by discriminate. destruct fuel as [|fuel]; [cbn in Hf; lia|]. cbn [quoted cut_at]. eqs. rewrite app_nil_r. eqs.
    rewrite IH; [|exact Ht|cbn [length] in Hf; lia]. cbn [lf]. eqs. rewrite <- app_assoc. reflexivity.
  - cbn [app] in *. specialize (IH tail). remember (d ++ 34 :: tail) as X eqn:HX.
    assert (Xn : X <> []) by (rewrite HX; destruct d; discriminate).
    assert (Xc : X <> [13]). { rewrite HX. intros E. assert (In 34 [13]) as [F|[]] by (rewrite <- E; apply in_or_app; right; left; reflexivity). discriminate. }
    destruct (N.eq_dec c 10) as [->|N10].
    + change (cut_line (10 :: X)) with ([10], X). cbn [fst snd norm_line N.eqb Pos.eqb]. destruct fuel as [|fuel]; [cbn in Hf; lia|]. cbn [quoted cut_at N.eqb Pos.eqb].
      destruct X as [|x X']; [congruence|]. rewrite read_line_some. rewrite IH; [|exact Ht|cbn [length] in *; lia].
      cbn [lf]. eqs. rewrite <- app_assoc. reflexivity.
    + rewrite cut_line_other by exact N10. cbn [fst snd].
      assert (Go : norm_line (c :: fst (cut_line X)) = c :: norm_line (fst (cut_line X)) -> lf (c :: v) = c :: lf v ->
        quoted fuel (norm_line (c :: fst (cut_line X))) (snd (cut_line X)) acc = after (acc ++ lf (c :: v)) tail).
      { intros E1 E2. rewrite E1, E2. rewrite quoted_char; [|exact Nc|apply norm_some; assumption].
        rewrite IH; [|exact Ht|cbn [length] in Hf; lia]. rewrite <- app_assoc. reflexivity. }
      destruct (N.eq_dec c 13) as [->|N13].
      * (* the next byte *)
        inversion D; subst v d.
        -- apply Go; [|reflexivity]. rewrite HX. cbn [app]. rewrite cut_line_other by discriminate. cbn [fst]. apply norm_cr; discriminate.
        -- apply Go; [|reflexivity]. rewrite HX. cbn [app]. rewrite cut_line_other by discriminate. cbn [fst]. apply norm_cr; discriminate.
        -- destruct (N.eq_dec c 10) as [->|M10].
           ++ assert (E : fst (cut_line X) = [10]) by (rewrite HX; reflexivity). rewrite E in *. change (norm_line [13; 10]) with [10].
              pose proof (IH fuel acc Ht) as Y. change (norm_line [10]) with [10] in Y.
              rewrite Y by (cbn [length] in Hf; lia). f_equal.
           ++ assert (E : fst (cut_line X) = c :: fst (cut_line (t ++ 34 :: tail))) by (rewrite HX; cbn [app]; rewrite cut_line_other by exact M10; reflexivity).
              apply Go.
              ** rewrite E. apply norm_cr; [discriminate|congruence].
              ** cbn [lf]. eqs. reflexivity.
      * apply Go; [apply norm_other; exact N13|]. cbn [lf]. eqs. reflexivity.
Qed.

(** * The fields of a record *)

Lemma cut_at_none x v : ~ In x v -> cut_at x v = None.
Proof.
  induction v as [|c v IH]; intros H; [reflexivity|]. cbn [cut_at]. assert (c <> x) by (intros ->; apply H; left; reflexivity). eqs.
  rewrite IH by (intros Y; apply H; right; exact Y). reflexivity.
Qed.
Lemma cut_at_some x v r : ~ In x v -> cut_at x (v ++ x :: r) = Some (v, r).
Proof.
  induction v as [|c v IH]; intros H; cbn [app cut_at]; [eqs; reflexivity|]. assert (c <> x) by (intros ->; apply H; left; reflexivity). eqs.
  rewrite IH by (intros Y; apply H; right; exact Y). reflexivity.
Qed.
Lemma drop_nl_end v : drop_nl (v ++ [10]) = v.
Proof. induction v as [|c v IH]; [reflexivity|]. cbn [app drop_nl]. rewrite IH. destruct v; reflexivity. Qed.
Lemma drop_nl_none v : ~ In 10 v -> drop_nl v = v.
Proof.
  induction v as [|c v IH]; intros H; [reflexivity|]. cbn [drop_nl]. destruct v as [|d v].
  - assert (c <> 10) by (intros ->; apply H; left; reflexivity). eqs. reflexivity.
  - f_equal. apply IH. intros Y. apply H. right. exact Y.
Qed.

Inductive rec_tail : bytes -> bytes -> Prop :=
  | rec_nil : rec_tail [] []
  | rec_cr : rec_tail [13] []
  | rec_end e t : line_end e -> rec_tail (e ++ t) t.
Lemma rec_tail_ok tail t : rec_tail tail t -> tail_ok tail.
Proof. destruct 1; constructor; assumption. Qed.
Lemma after_rec acc tail t : rec_tail tail t -> after acc tail = Ok (acc, None, t).
Proof. destruct 1 as [| |e t He]; [reflexivity|reflexivity|]. destruct He; reflexivity. Qed.

Definition not_quote (line : bytes) : Prop := forall r, line <> 34 :: r.
Lemma fields_plain fuel line rest : not_quote line -> fields (S fuel) line rest =
  match cut_at 44 line with
  | Some (f, line) => do! (fs, rest) <- fields fuel line rest; Ok (f :: fs, rest)
  | None => Ok ([drop_nl line], rest)
  end.
Proof.
  intros H. cbn [fields]. destruct line as [|c r]; [reflexivity|]. assert (c <> 34) by (intros ->; exact (H r eq_refl)). eqs. reflexivity.
Qed.
Lemma fields_quoted fuel r rest : fields (S fuel) (34 :: r) rest =
  do! (f, next, rest) <- quoted fuel r rest [];
  match next with
  | Some line => do! (fs, rest) <- fields fuel line rest; Ok (f :: fs, rest)
  | None => Ok ([f], rest)
  end.
Proof. reflexivity. Qed.
Lemma not_quote_app v x l : (forall r, v <> 34 :: r) -> x <> 34 -> not_quote (v ++ x :: l).
Proof. intros A B r E. destruct v as [|c v]; cbn [app] in E; inversion E; subst; [congruence|]. exact (A v eq_refl). Qed.
Lemma not_in_app (x : N) v r : In x v -> In x (v ++ r).
Proof. intros H. apply in_or_app. left. exact H. Qed.

Lemma fields_ok r tr : record_text r tr -> forall tail t fuel, rec_tail tail t -> (length (tr ++ tail) < fuel)%nat ->
  fields fuel (norm_line (fst (cut_line (tr ++ tail)))) (snd (cut_line (tr ++ tail))) = Ok (map lf r, t).
Proof.
  induction 1 as [v tr F|v tv vs ts F R IH]; intros tail t fuel Ht Hf; (destruct fuel as [|fuel]; [lia|]).
  - inversion F as [v' (P1 & P2 & P3 & P4) | v' d D]; subst.
    + rewrite cut_line_app by exact P2. cbn [fst snd]. rewrite norm_app by exact P3. destruct Ht as [| |e t He]; [| |].
      1-2: cbn [cut_line fst snd norm_line N.eqb Pos.eqb]; rewrite app_nil_r; rewrite fields_plain by exact P4; rewrite cut_at_none by exact P1;
        rewrite drop_nl_none by exact P2; cbn [map]; rewrite lf_plain by exact P3; reflexivity.
      * assert (E : norm_line (fst (cut_line (e ++ t))) = [10] /\ snd (cut_line (e ++ t)) = t) by (destruct He; split; reflexivity).
        destruct E as [-> ->]. rewrite fields_plain by (apply not_quote_app; [exact P4|discriminate]).
        rewrite cut_at_none by (rewrite in_app_iff; intros [Y|[Y|[]]]; [exact (P1 Y)|discriminate]). rewrite drop_nl_end. cbn [map]. rewrite lf_plain by exact P3. reflexivity.
    + cbn [app] in *. rewrite <- app_assoc in *. cbn [app] in *. rewrite cut_line_other by discriminate. cbn [fst snd]. rewrite norm_other by discriminate.
      rewrite fields_quoted. rewrite (quoted_ok _ _ D); [|exact (rec_tail_ok _ _ Ht)|cbn [length] in Hf; lia].
      rewrite (after_rec _ _ _ Ht). reflexivity.
  - rewrite <- app_assoc in *. cbn [app] in *. inversion F as [v' (P1 & P2 & P3 & P4) | v' d D]; subst.
    + rewrite cut_line_app by exact P2. rewrite cut_line_other by discriminate. cbn [fst snd]. rewrite norm_app by exact P3. rewrite norm_other by discriminate.
      rewrite fields_plain by (apply not_quote_app; [exact P4|discriminate]). rewrite cut_at_some by exact P1.
      rewrite (IH tail t); [|exact Ht|rewrite app_length in Hf; cbn [length] in Hf; lia]. cbn [bind map]. rewrite lf_plain by exact P3. reflexivity.
    + cbn [app] in *. rewrite <- app_assoc in *. cbn [app] in *. rewrite cut_line_other by discriminate. cbn [fst snd]. rewrite norm_other by discriminate.
      rewrite fields_quoted. rewrite (quoted_ok _ _ D); [|constructor|cbn [length] in Hf; lia]. cbn [after app]. eqs. cbn [bind].
      rewrite (IH tail t); [|exact Ht|cbn [length] in Hf; rewrite app_length in Hf; cbn [length] in Hf; lia]. reflexivity.
Qed.

(** * Records *)

Lemma record_start r tr : record_text r tr -> tr <> [] -> exists c t, tr = c :: t /\ c <> 10 /\ c <> 13.
Proof.
  assert (X : forall v t x l, field_text v t -> x <> 10 -> x <> 13 -> exists c y, t ++ x :: l = c :: y /\ c <> 10 /\ c <> 13).
  { intros v t x l F Hx Hy. inversion F as [v' (P1 & P2 & P3 & P4) | v' d D]; subst.
    - destruct t as [|c y]; [exists x, l; auto|]. exists c, (y ++ x :: l). split; [reflexivity|]. split; intros ->; [apply P2|apply P3]; left; reflexivity.
    - cbn [app]. eexists _, _. split; [reflexivity|]. split; discriminate. }
  intros R Ne. destruct R as [v t F|v t vs ts F R].
  - inversion F as [v' (P1 & P2 & P3 & P4) | v' d D]; subst.
    + destruct t as [|c y]; [congruence|]. exists c, y. split; [reflexivity|]. split; intros ->; [apply P2|apply P3]; left; reflexivity.
    + eexists _, _. split; [reflexivity|]. split; discriminate.
  - apply (X v); [exact F|discriminate|discriminate].
Qed.
Lemma not_blank c l : c <> 10 -> blank (c :: l) = false.
Proof. intros H. unfold blank. cbn [drop_nl]. destruct l; [eqs; reflexivity|reflexivity]. Qed.

Definition as_record (fs : list bytes) (rest : bytes) : result (bytes * bytes * bytes) :=
  match fs with [a; b] => Ok (a, b, rest) | _ => Err EOther end.
Lemma record_ok r tr tail t fuel : record_text r tr -> tr <> [] -> rec_tail tail t -> (length (tr ++ tail) < fuel)%nat ->
  read_record fuel (tr ++ tail) = as_record (map lf r) t.
Proof.
  intros R Ne Ht Hf. destruct fuel as [|fuel]; [lia|]. cbn [read_record]. pose proof (fields_ok r tr R tail t (S fuel) Ht Hf) as F.
  destruct (record_start r tr R Ne) as (c & y & E & C1 & C2). subst tr. cbn [app] in *. rewrite read_line_some.
  rewrite cut_line_other in * by exact C1. cbn [fst snd] in *. rewrite norm_other in * by exact C2. rewrite not_blank by exact C1.
  rewrite F. reflexivity.
Qed.
Lemma record_blank e t fuel : line_end e -> read_record (S fuel) (e ++ t) = read_record fuel t.
Proof. intros [|]; reflexivity. Qed.

(** Enough fuel. *)
Lemma cut_at_length x l a b : cut_at x l = Some (a, b) -> length l = (S (length a + length b))%nat.
Proof.
  revert a b. induction l as [|c l IH]; intros a b; cbn [cut_at]; [discriminate|]. destruct (c =? x); [intros [= <- <-]; reflexivity|].
  destruct (cut_at x l) as [[a' b']|]; [|discriminate]. intros [= <- <-]. cbn [length]. rewrite (IH _ _ eq_refl). lia.
Qed.
Lemma read_line_length r l rest : read_line r = Some (l, rest) -> (length l + length rest <= length r /\ length rest < length r)%nat.
Proof.
  unfold read_line. pose proof (cut_line_all r) as E. destruct (cut_line r) as [[|x l0] rest0]; [discriminate|]. cbn [fst snd] in E.
  pose proof (norm_length (x :: l0)) as X. apply (f_equal (@length N)) in E. rewrite app_length in E. remember (norm_line (x :: l0)) as nl.
  intros [= <- <-]. cbn [length] in E, X |- *. lia.
Qed.
Lemma quoted_total fuel : forall line rest acc, (length line + length rest < fuel)%nat ->
  exists f next rest', quoted fuel line rest acc = Ok (f, next, rest') /\ (length rest' <= length rest)%nat /\ (length (match next with Some l => l | None => [] end) + length rest' <= length line + length rest)%nat.
Proof.
  induction fuel as [|fuel IH]; intros line rest acc L; [lia|]. cbn [quoted]. destruct (cut_at 34 line) as [[pre l]|] eqn:E.
  - apply cut_at_length in E. destruct l as [|c r].
    + eexists _, _, _. split; [reflexivity|]. split; cbn [length]; lia.
    + cbn [length] in E. destruct (c =? 34).
      * destruct (IH r rest ((acc ++ pre) ++ [34])) as (f & nx & rs & Q & B0 & B); [lia|]. rewrite Q. eexists _, _, _. split; [reflexivity|]. split; lia.
      * destruct (c =? 44); [eexists _, _, _; split; [reflexivity|split; lia]|]. destruct (blank (c :: r)); [eexists _, _, _; split; [reflexivity|split; cbn [length]; lia]|].
        destruct (IH (c :: r) rest ((acc ++ pre) ++ [34])) as (f & nx & rs & Q & B0 & B); [cbn [length]; lia|]. rewrite Q. eexists _, _, _. split; [reflexivity|]. split; cbn [length] in B; lia.
  - destruct line as [|c r]; [eexists _, _, _; split; [reflexivity|split; cbn [length]; lia]|]. destruct (read_line rest) as [[nx rs]|] eqn:R.
    + apply read_line_length in R. destruct (IH nx rs (acc ++ c :: r)) as (f & nx' & rs' & Q & B0 & B); [cbn [length] in *; lia|]. rewrite Q. eexists _, _, _. split; [reflexivity|]. split; cbn [length]; lia.
    + destruct (IH [] rest (acc ++ c :: r)) as (f & nx' & rs' & Q & B0 & B); [cbn [length] in *; lia|]. rewrite Q. eexists _, _, _. split; [reflexivity|]. split; cbn [length] in *; lia.
Qed.
Lemma fields_total fuel : forall line rest, (length line + length rest < fuel)%nat ->
  exists fs rest', fields fuel line rest = Ok (fs, rest') /\ (length rest' <= length rest)%nat.
Proof.
  induction fuel as [|fuel IH]; intros line rest L; [lia|].
  assert (P : exists fs rest', match cut_at 44 line with Some (f, line) => do! (fs, rest) <- fields fuel line rest; Ok (f :: fs, rest) | None => Ok ([drop_nl line], rest) end = Ok (fs, rest') /\ (length rest' <= length rest)%nat).
  { destruct (cut_at 44 line) as [[a b]|] eqn:E.
    - apply cut_at_length in E. destruct (IH b rest) as (fs & rs & -> & B); [lia|]. cbn [bind]. eexists _, _. split; [reflexivity|lia].
    - eexists _, _. split; [reflexivity|lia]. }
  cbn [fields]. destruct line as [|c r]; [exact P|]. destruct (c =? 34); [|exact P]. cbn [length] in L.
  destruct (quoted_total fuel r rest []) as (f & nx & rs & -> & B0 & B); [lia|]. cbn [bind]. destruct nx as [l|].
  - destruct (IH l rs) as (fs & rs' & -> & B'); [lia|]. cbn [bind]. eexists _, _. split; [reflexivity|cbn [length]; lia].
  - eexists _, _. split; [reflexivity|cbn [length] in *; lia].
Qed.
(** A record, the end, or an error. *)
Inductive is_read (r : bytes) : result (bytes * bytes * bytes) -> Prop :=
  | is_record a b rest : (length rest < length r)%nat -> is_read r (Ok (a, b, rest))
  | is_eof : is_read r (Err EOF)
  | is_bad : is_read r (Err EOther).
Lemma record_total fuel : forall r, (length r < fuel)%nat -> is_read r (read_record fuel r).
Proof.
  induction fuel as [|fuel IH]; intros r L; [lia|]. cbn [read_record]. destruct (read_line r) as [[l rest]|] eqn:R; [|constructor].
  apply read_line_length in R. destruct (blank l).
  - destruct (IH rest) as [a b rs B| |]; [lia|constructor; lia|constructor|constructor].
  - destruct (fields_total (S fuel) l rest) as (fs & rs & -> & B); [lia|]. cbn [bind]. destruct fs as [|a [|b [|? ?]]]; constructor. lia.
Qed.

(** More fuel does no harm. *)
Lemma quoted_mono fuel : forall line rest acc fuel', quoted fuel line rest acc <> Loop -> (fuel <= fuel')%nat -> quoted fuel' line rest acc = quoted fuel line rest acc.
Proof.
  induction fuel as [|fuel IH]; intros line rest acc fuel' H L; [cbn [quoted] in H; congruence|]. destruct fuel' as [|fuel']; [lia|].
  cbn [quoted] in *. destruct (cut_at 34 line) as [[pre l]|].
  - destruct l as [|c r]; [reflexivity|]. destruct (c =? 34); [apply IH; [exact H|lia]|]. destruct (c =? 44); [reflexivity|]. destruct (blank (c :: r)); [reflexivity|]. apply IH; [exact H|lia].
  - destruct line; [reflexivity|]. destruct (read_line rest) as [[nx rs]|]; apply IH; first [exact H|lia].
Qed.
Lemma bind_loop {A B} (r : result A) (k : A -> result B) : bind r k <> Loop -> r <> Loop.
Proof. intros H E. rewrite E in H. exact (H eq_refl). Qed.
Lemma fields_mono fuel : forall line rest fuel', fields fuel line rest <> Loop -> (fuel <= fuel')%nat -> fields fuel' line rest = fields fuel line rest.
Proof.
  induction fuel as [|fuel IH]; intros line rest fuel' H L; [cbn [fields] in H; congruence|]. destruct fuel' as [|fuel']; [lia|].
  assert (P : match cut_at 44 line with Some (f, line) => do! (fs, rest) <- fields fuel line rest; Ok (f :: fs, rest) | None => Ok ([drop_nl line], rest) end <> Loop ->
    match cut_at 44 line with Some (f, line) => do! (fs, rest) <- fields fuel' line rest; Ok (f :: fs, rest) | None => Ok ([drop_nl line], rest) end =
    match cut_at 44 line with Some (f, line) => do! (fs, rest) <- fields fuel line rest; Ok (f :: fs, rest) | None => Ok ([drop_nl line], rest) end).
  { destruct (cut_at 44 line) as [[a b]|]; [|reflexivity]. intros X. rewrite IH; [reflexivity|exact (bind_loop _ _ X)|lia]. }
  cbn [fields] in *. destruct line as [|c r]; [exact (P H)|]. destruct (c =? 34); [|exact (P H)].
  rewrite (quoted_mono fuel r rest [] fuel'); [|exact (bind_loop _ _ H)|lia]. destruct (quoted fuel r rest []) as [[[f nx] rs]| | |]; cbn [bind] in *; try reflexivity.
  destruct nx as [l|]; [|reflexivity]. rewrite IH; [reflexivity|exact (bind_loop _ _ H)|lia].
Qed.
Lemma record_mono fuel : forall r fuel', read_record fuel r <> Loop -> (fuel <= fuel')%nat -> read_record fuel' r = read_record fuel r.
Proof.
  induction fuel as [|fuel IH]; intros r fuel' H L; [cbn [read_record] in H; congruence|]. destruct fuel' as [|fuel']; [lia|].
  cbn [read_record] in *. destruct (read_line r) as [[l rest]|]; [|reflexivity]. destruct (blank l); [apply IH; [exact H|lia]|].
  rewrite (fields_mono (S fuel) l rest (S fuel')); [reflexivity|exact (bind_loop _ _ H)|lia].
Qed.
Definition record (r : bytes) := read_record (S (length r)) r.
Lemma record_fuel fuel r : (length r < fuel)%nat -> read_record fuel r = record r.
Proof.
  intros L. apply record_mono; [|lia]. intros E. pose proof (record_total (S (length r)) r (Nat.lt_succ_diag_r _)) as T. rewrite E in T. inversion T.
Qed.
Lemma record_ended e t : line_end e -> record (e ++ t) = record t.
Proof.
  intros H. unfold record. rewrite record_blank by exact H. apply record_fuel. destruct H; cbn [app length]; lia.
Qed.

(** * All records *)

Lemma all_fuel fuel : forall r, (length r < fuel)%nat -> read_all fuel r = csv_records r.
Proof.
  assert (X : forall n fuel fuel' r, (length r < n)%nat -> (length r < fuel)%nat -> (length r < fuel')%nat -> read_all fuel r = read_all fuel' r).
  { induction n as [|n IH]; intros f f' r Hn Hf Hf'; [lia|]. destruct f as [|f]; [lia|]. destruct f' as [|f']; [lia|]. cbn [read_all].
    destruct (record_total (S (length r)) r (Nat.lt_succ_diag_r _)) as [a b rest L| |]; try reflexivity. rewrite (IH f f' rest); [reflexivity|lia|lia|lia]. }
  intros r L. apply (X (S (length r))); lia.
Qed.
Lemma records_step r : csv_records r =
  match record r with
  | Ok (a, b, rest) => let '(rcds, e) := csv_records rest in ((a, b) :: rcds, e)
  | Err EOF => ([], Ok tt)
  | Err EOther => ([], Err EOther)
  | Panic => ([], Panic)
  | Loop => ([], Loop)
  end.
Proof.
  unfold csv_records at 1. cbn [read_all]. fold (record r). pose proof (record_total (S (length r)) r (Nat.lt_succ_diag_r _)) as T. fold (record r) in T.
  destruct T as [a b rest L| |]; try reflexivity. rewrite all_fuel by exact L. reflexivity.
Qed.
Lemma records_total r : (snd (csv_records r) = Ok tt \/ snd (csv_records r) = Err EOther).
Proof.
  assert (X : forall n r, (length r < n)%nat -> snd (csv_records r) = Ok tt \/ snd (csv_records r) = Err EOther); [|exact (X _ r (Nat.lt_succ_diag_r _))].
  clear r. induction n as [|n IH]; intros r L; [lia|]. rewrite records_step. pose proof (record_total (S (length r)) r (Nat.lt_succ_diag_r _)) as T. fold (record r) in T.
  destruct T as [a b rest B| |]; [|left; reflexivity|right; reflexivity]. specialize (IH rest ltac:(lia)). destruct (csv_records rest). exact IH.
Qed.
Lemma records_ended e t : line_end e -> csv_records (e ++ t) = csv_records t.
Proof. intros H. rewrite !records_step, record_ended by exact H. reflexivity. Qed.

Definition lfs (p : bytes * bytes) : bytes * bytes := (lf (fst p), lf (snd p)).
Lemma records_one a b tr tail t : record_text [a; b] tr -> tr <> [] -> rec_tail tail t ->
  csv_records (tr ++ tail) = ((lf a, lf b) :: fst (csv_records t), snd (csv_records t)).
Proof.
  intros R Ne Ht. rewrite records_step. unfold record. rewrite (record_ok _ _ _ _ _ R Ne Ht) by lia. cbn [map as_record]. destruct (csv_records t). reflexivity.
Qed.
Lemma records_bad r tr tail t : record_text r tr -> tr <> [] -> length r <> 2%nat -> rec_tail tail t -> csv_records (tr ++ tail) = ([], Err EOther).
Proof.
  intros R Ne L Ht. rewrite records_step. unfold record. rewrite (record_ok _ _ _ _ _ R Ne Ht) by lia.
  destruct r as [|a [|b [|c r]]]; cbn [length map as_record] in *; try reflexivity. lia.
Qed.
Lemma records_lines rs t : lines_text rs t -> forall ps tail, pairs rs ps ->
  csv_records (t ++ tail) = (map lfs ps ++ fst (csv_records tail), snd (csv_records tail)).
Proof.
  induction 1 as [|e rs t He H IH|r tr e rs t R Ne He H IH]; intros ps tail P.
  - destruct ps; [|discriminate]. cbn [map app]. destruct (csv_records tail). reflexivity.
  - rewrite <- app_assoc, records_ended by exact He. apply IH, P.
  - destruct ps as [|[a b] ps]; [discriminate|]. cbn [pairs map fst snd] in P. injection P as -> P. rewrite <- !app_assoc.
    rewrite (records_one a b tr (e ++ t ++ tail) (t ++ tail)); [|exact R|exact Ne|constructor; exact He]. rewrite (IH ps tail P). reflexivity.
Qed.
Lemma records_csv rs t ps : csv_text rs t -> pairs rs ps -> csv_records t = (map lfs ps, Ok tt).
Proof.
  intros [rs' t' H|rs' t' r tr H R Ne] P.
  - rewrite <- (app_nil_r t'). rewrite (records_lines _ _ H ps [] P). cbn [csv_records fst snd]. rewrite app_nil_r. reflexivity.
  - unfold pairs in P. symmetry in P. apply map_eq_app in P. destruct P as (p1 & p2 & -> & P1 & P2). destruct p2 as [|[a b] [|? ?]]; try discriminate.
    cbn [map fst snd] in P2. injection P2 as <-. rewrite (records_lines _ _ H p1 tr (eq_sym P1)).
    rewrite <- (app_nil_r tr). rewrite (records_one a b tr [] [] R Ne rec_nil). rewrite map_app. reflexivity.
Qed.

(** A carriage return at the end of the file *)
Lemma records_cr rs t r tr ps : lines_text rs t -> record_text r tr -> tr <> [] -> pairs (rs ++ [r]) ps -> csv_records (t ++ tr ++ [13]) = (map lfs ps, Ok tt).
Proof.
  intros H R Ne P. unfold pairs in P. symmetry in P. apply map_eq_app in P. destruct P as (p1 & p2 & -> & P1 & P2). destruct p2 as [|[a b] [|? ?]]; try discriminate.
  cbn [map fst snd] in P2. injection P2 as <-. rewrite (records_lines _ _ H p1 _ (eq_sym P1)).
  rewrite (records_one a b tr [13] [] R Ne rec_cr). rewrite map_app. reflexivity.
Qed.

(** * The Writer writes such files *)

Lemma escape_doubled v : doubled v (escape v).
Proof.
  induction v as [|c v IH]; cbn [escape]; [constructor|]. destruct (c =? 34) eqn:E; [apply N.eqb_eq in E; subst c|apply N.eqb_neq in E]; constructor; assumption.
Qed.
Lemma write_field_text v : field_text v (write_field v).
Proof.
  unfold write_field. destruct (needs_quotes v) eqn:E; [constructor; apply escape_doubled|]. constructor. destruct v as [|c v]; [repeat split; try intros []; discriminate|].
  unfold needs_quotes in E. apply Bool.orb_false_elim in E. destruct E as [E _]. apply Bool.orb_false_elim in E. destruct E as [_ E].
  assert (X : forall x, In x (c :: v) -> x <> 44 /\ x <> 34 /\ x <> 13 /\ x <> 10).
  { intros x Hx. assert (Y : (x =? 44) || (x =? 34) || (x =? 13) || (x =? 10) = false).
    { destruct ((x =? 44) || (x =? 34) || (x =? 13) || (x =? 10)) eqn:Z; [|reflexivity]. rewrite <- E. symmetry. apply existsb_exists. exists x. split; assumption. }
    clear -Y. repeat (apply Bool.orb_false_elim in Y; destruct Y as [Y ?]). rewrite !N.eqb_neq in *. tauto. }
  repeat split.
  - intros H. destruct (X _ H) as (A & _). congruence.
  - intros H. destruct (X _ H) as (_ & _ & _ & A). congruence.
  - intros H. destruct (X _ H) as (_ & _ & A & _). congruence.
  - intros r [= -> _]. destruct (X 34 (or_introl eq_refl)) as (_ & A & _). congruence.
Qed.
Lemma written_lines ps : lines_text (map (fun p => [fst p; snd p]) ps) (concat (map (fun p => write_record (fst p) (snd p)) ps)).
Proof.
  induction ps as [|[a b] ps IH]; cbn [map concat fst snd]; [constructor|].
  assert (E : write_record a b ++ concat (map (fun p => write_record (fst p) (snd p)) ps) = (write_field a ++ 44 :: write_field b) ++ [10] ++ concat (map (fun p => write_record (fst p) (snd p)) ps)).
  { unfold write_record. rewrite <- !app_assoc. cbn [app]. rewrite <- app_assoc. reflexivity. }
  rewrite E. constructor; [|destruct (write_field a); discriminate|constructor|exact IH].
  constructor; [apply write_field_text|constructor; apply write_field_text].
Qed.

(** * The buffer *)

Lemma buf_app w s t : buf_write w (s ++ t) = buf_write (buf_write w s) t.
Proof. revert w. induction s as [|c s IH]; intros [out buf]; [reflexivity|]. cbn [app buf_write]. apply IH. Qed.
Definition buf_inv (w : bufout) (q : N) (s : bytes) : Prop :=
  fst w ++ snd w = s /\ nlen (fst w) = 4096 * q /\ nlen (snd w) <= 4096 /\ (s <> [] -> snd w <> []).
Lemma nlen_app {A} (a b : list A) : nlen (a ++ b) = nlen a + nlen b.
Proof. unfold nlen. rewrite app_length. lia. Qed.
Lemma buf_holds s : exists q, buf_inv (buf_write ([], []) s) q s.
Proof.
  induction s as [|c s [q I]] using rev_ind.
  - exists 0. split; [reflexivity|]. split; [reflexivity|]. split; [discriminate|]. congruence.
  - rewrite buf_app. destruct (buf_write ([], []) s) as [out buf]. cbn [buf_write]. destruct I as (A & B & C & D). cbn [fst snd] in *. destruct (nlen buf =? 4096) eqn:E.
    + apply N.eqb_eq in E. exists (q + 1). unfold buf_inv. cbn [fst snd]. rewrite nlen_app, E, B, A. split; [reflexivity|]. split; [lia|]. split; [discriminate|]. discriminate.
    + apply N.eqb_neq in E. exists q. unfold buf_inv. cbn [fst snd]. rewrite app_assoc, A, nlen_app. change (nlen [c]) with 1. split; [reflexivity|]. split; [exact B|]. split; [lia|]. intros _ X. destruct buf; discriminate.
Qed.
Lemma buf_flushed s : s <> [] -> fst (buf_write ([], []) s) = firstn (N.to_nat (4096 * ((nlen s - 1) / 4096))) s.
Proof.
  intros Ne. destruct (buf_holds s) as (q & A & B & C & D). specialize (D Ne). destruct (buf_write ([], []) s) as [out buf]. cbn [fst snd] in *.
  assert (L : nlen s = 4096 * q + nlen buf) by (rewrite <- A, nlen_app; lia).
  assert (1 <= nlen buf) by (destruct buf; [congruence|unfold nlen; cbn [length]; lia]).
  assert (Q : (nlen s - 1) / 4096 = q) by (symmetry; apply (N.div_unique _ _ _ (nlen buf - 1)); lia).
  rewrite Q, <- B. unfold nlen. rewrite Nat2N.id, <- A, firstn_app, Nat.sub_diag, firstn_all, firstn_O, app_nil_r. reflexivity.
Qed.
