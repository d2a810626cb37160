From Verif Require Import Model.Base Model.Index Model.Cmd Model.Enron Proof.Tactics.
Local Open Scope N_scope.

Definition rcds_size (rcds : list (bytes * bytes)) : N := fold_right (fun p n => nlen (fst p) + nlen (snd p) + n) 0 rcds.

Lemma blank_line_le msg i : blank_line msg = Some i -> (i + 2 <= length msg)%nat.
Proof.
  revert i. induction msg as [|c r IH]; intros i H; [discriminate|]. cbn [blank_line] in H. destruct r as [|d r]; [discriminate|].
  destruct ((c =? 10) && (d =? 10)); [inversion H; cbn; lia|]. destruct (blank_line (d :: r)) eqn:E; [|discriminate].
  inversion H. specialize (IH _ eq_refl). cbn [length] in *. lia.
Qed.

(** Lengths and offsets without the wrapping. *)
Lemma enron_doc_at fname offset name msg d offset' : offset + nlen name + nlen msg + 2 < 4294967296 ->
  enron_doc fname offset name msg = (d, offset') ->
  offset' = offset + nlen (d_dat d) /\ d_end d = offset' /\ nlen (d_dat d) <= nlen msg /\
  d_start d = offset + nlen name + (match blank_line msg with None => 1 | Some i => N.of_nat i + 2 end) /\ d_path d = fname.
Proof.
  intros B E. unfold enron_doc in E. inversion E as [[Ed Eo]]; subst. clear E. cbn [d_dat d_end d_start d_path].
  assert (L : nlen (match blank_line msg with None => msg | Some i => skipn (i + 2) msg end) <= nlen msg).
  { destruct (blank_line msg) as [i|]; [unfold nlen; rewrite skipn_length; lia|lia]. }
  remember (nlen (match blank_line msg with None => msg | Some i => skipn (i + 2) msg end)) as m. clear Heqm.
  assert (Em : u32 m = m) by (unfold u32; apply N.mod_small; lia). rewrite Em.
  assert (En : u32 (nlen name) = nlen name) by (unfold u32; apply N.mod_small; lia). rewrite En.
  split; [unfold add32, u32; apply N.mod_small; lia|]. split; [reflexivity|]. split; [exact L|]. split; [|reflexivity].
  unfold add32, u32. destruct (blank_line msg) as [i|] eqn:Hi.
  - apply blank_line_le in Hi. unfold nlen in B. rewrite (N.mod_small (N.of_nat i)) by lia. rewrite (N.mod_small (offset + _)) by lia.
    rewrite (N.mod_small (offset + _ + 2)) by lia. rewrite N.mod_small; unfold nlen; lia.
  - replace (((offset + 4294967295) mod 4294967296 + 2) mod 4294967296) with (offset + 1).
    + rewrite N.mod_small; lia.
    + rewrite N.add_mod_idemp_l by discriminate. replace (offset + 4294967295 + 2) with (offset + 1 + 1 * 4294967296) by lia.
      rewrite N.mod_add by discriminate. symmetry. apply N.mod_small. lia.
Qed.

Lemma enron_range fname : forall rcds offset d, offset + rcds_size rcds + 2 < 4294967296 -> In d (enron_docs fname offset rcds) ->
  d_path d = fname /\ 0 < d_start d /\ (d_end d + 4294967296 - d_start d) mod 4294967296 <> nlen (d_dat d).
Proof.
  induction rcds as [|[name msg] r IH]; intros offset d B Hi; [destruct Hi|]. cbn [enron_docs] in Hi.
  cbn [rcds_size fold_right fst snd] in B. fold (rcds_size r) in B.
  destruct (enron_doc fname offset name msg) as [d0 o'] eqn:E.
  apply enron_doc_at in E as (Eo & Ee & L & Es & Ep); [|lia]. destruct Hi as [<-|Hi].
  - split; [exact Ep|]. split; [rewrite Es; destruct (blank_line msg); lia|].
    assert (K : match blank_line msg with None => 1 | Some i => N.of_nat i + 2 end <= nlen msg + 1).
    { destruct (blank_line msg) as [i|] eqn:Hb; [apply blank_line_le in Hb; unfold nlen; lia|lia]. }
    assert (K1 : 1 <= match blank_line msg with None => 1 | Some i => N.of_nat i + 2 end) by (destruct (blank_line msg); lia).
    revert Es K K1. generalize (match blank_line msg with None => 1 | Some i => N.of_nat i + 2 end). intros k Es K K1.
    rewrite Ee, Es, Eo. replace (offset + nlen (d_dat d0) + 4294967296 - (offset + nlen name + k)) with (nlen (d_dat d0) + 4294967296 - (nlen name + k)) by lia.
    revert L B K. generalize (nlen (d_dat d0)) (nlen name) (nlen msg). intros m n l L B K.
    destruct (N.le_gt_cases (n + k) m) as [C|C].
    + replace (m + 4294967296 - (n + k)) with (m - (n + k) + 1 * 4294967296) by lia. rewrite N.mod_add by discriminate. rewrite N.mod_small; lia.
    + rewrite N.mod_small; lia.
  - apply (IH o'); [lia|exact Hi].
Qed.

(** The document read back is never the one that was indexed. *)
Lemma enron_never_loads fname rcds d fs : rcds_size rcds + 2 < 4294967296 -> In d (enron_docs fname 0 rcds) ->
  forall d', doc_load fs fname (d_start d) (d_end d) = Ok d' -> d_dat d' <> d_dat d.
Proof.
  intros B Hi d' L E. destruct (enron_range fname rcds 0 d B Hi) as (_ & P & Ne). apply Ne.
  unfold doc_load in L. destruct (fs fname) as [content|]; [|discriminate].
  replace (d_start d =? 0) with false in L by (symmetry; apply N.eqb_neq; lia). cbn [andb] in L.
  destruct (pread content (Z.of_N (d_start d)) (Z.of_N (sub32 (d_end d) (d_start d)))) as [x|e| |] eqn:Ex; try discriminate.
  inversion L; subst d'. cbn [d_dat] in E. subst x.
  assert (Ln : nlen (d_dat d) = sub32 (d_end d) (d_start d)).
  { clear - Ex. unfold pread in Ex. destruct (Z.ltb_spec (Z.of_N (d_start d)) 0); [lia|].
    destruct (Z.leb_spec (Z.of_N (sub32 (d_end d) (d_start d))) 0) as [Z0|Z0].
    - inversion Ex as [E]. unfold nlen. cbn. lia.
    - destruct (Z.leb_spec (Z.of_N (d_start d) + Z.of_N (sub32 (d_end d) (d_start d))) (zlen content)) as [C|C]; [|discriminate].
      inversion Ex as [E]. unfold nlen, zlen in *. rewrite firstn_length, skipn_length. lia. }
  rewrite Ln. reflexivity.
Qed.

(** The text after the first empty line, or all of it. *)
Definition body (msg dat : bytes) : Prop :=
  (exists pre, msg = pre ++ 10 :: 10 :: dat /\ forall a b, pre ++ [10] <> a ++ 10 :: 10 :: b) \/
  (msg = dat /\ forall a b, msg <> a ++ 10 :: 10 :: b).

Lemma blank_line_spec msg : match blank_line msg with
  | Some i => exists pre, length pre = i /\ msg = pre ++ 10 :: 10 :: skipn (i + 2) msg /\ forall a b, pre ++ [10] <> a ++ 10 :: 10 :: b
  | None => forall a b, msg <> a ++ 10 :: 10 :: b end.
Proof.
  induction msg as [|c r IH]; [intros [|? ?] ? H; discriminate|]. cbn [blank_line]. destruct r as [|d r].
  - intros [|x [|? ?]] b H; discriminate.
  - destruct (N.eqb_spec c 10) as [->|Nc]; [destruct (N.eqb_spec d 10) as [->|Nd]|]; cbn [andb].
    + exists []. split; [reflexivity|]. split; [reflexivity|]. intros [|x [|y a]] b H; discriminate.
    + destruct (blank_line (d :: r)) as [i|] eqn:E; cbn [option_map].
      * destruct IH as (pre & L & E1 & N1). exists (10 :: pre). split; [cbn; lia|]. split.
        -- cbn [Nat.add skipn app]. f_equal. exact E1.
        -- intros [|x a] b H.
           ++ destruct pre as [|y pre]; [|cbn in H; inversion H; subst; cbn in E1; inversion E1; congruence].
              cbn in *. inversion E1. congruence.
           ++ inversion H. exact (N1 _ _ H2).
      * intros [|x a] b H; inversion H; [congruence|]. exact (IH _ _ H2).
    + destruct (blank_line (d :: r)) as [i|] eqn:E; cbn [option_map].
      * destruct IH as (pre & L & E1 & N1). exists (c :: pre). split; [cbn; lia|]. split.
        -- cbn [Nat.add skipn app]. f_equal. exact E1.
        -- intros [|x a] b H; inversion H; [congruence|]. exact (N1 _ _ H2).
      * intros [|x a] b H; inversion H; [congruence|]. exact (IH _ _ H2).
Qed.

Lemma enron_bodies fname : forall rcds offset,
  Forall2 (fun r d => d_path d = fname /\ body (snd r) (d_dat d)) rcds (enron_docs fname offset rcds).
Proof.
  induction rcds as [|[name msg] r IH]; intros offset; [constructor|]. cbn [enron_docs enron_doc]. constructor; [|apply IH].
  cbn [d_path d_dat snd]. split; [reflexivity|]. pose proof (blank_line_spec msg) as B. destruct (blank_line msg) as [i|].
  - left. destruct B as (pre & _ & E & N1). exists pre. auto.
  - right. auto.
Qed.
