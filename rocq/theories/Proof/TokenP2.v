(** The tokens of a text, in the form of C15 and C16. *)
From Verif Require Import Model.Base Model.Utf8 Model.Token Model.Blotter Model.Config Model.Index Model.Shatter.
From Verif Require Import Spec.Text Proof.Tactics Proof.Utf8P Proof.TokenP.
Local Open Scope N_scope.

Lemma Forall_removelast {A} (P : A -> Prop) l : Forall P l -> Forall P (removelast l).
Proof.
  intros F. destruct l as [|a l]; [constructor|].
  rewrite (app_removelast_last a) in F by discriminate. apply Forall_app in F. apply F.
Qed.
Lemma cat_scalars R : Forall scalar (cat R) -> Forall (fun br => Forall scalar (snd br)) R.
Proof.
  induction R as [|[b run] R IH]; intros F; constructor; unfold cat in F; cbn [map snd concat] in F;
    apply Forall_app in F; cbn [snd]; [apply F|apply IH, F].
Qed.
Lemma toks_of_nth off R : forall pos i t, nth_error (toks_of off pos R) i = Some t ->
  exists b run, nth_error R i = Some (b, run) /\ t_tag t = (if b then Word else Other) /\ t_lit t = utf8s run /\
    t_pos t = u32 (off + N.of_nat (pos + length (concat (map t_lit (firstn i (toks_of off pos R)))))).
Proof.
  induction R as [|[b run] R IH]; intros pos i t E; cbn [toks_of] in *; [destruct i; discriminate|].
  destruct i as [|i]; cbn [nth_error firstn map concat t_lit] in *.
  - inv E. exists b, run. cbn [t_tag t_lit t_pos length]. rewrite Nat.add_0_r. auto.
  - destruct (IH _ _ _ E) as (b' & run' & E1 & E2 & E3 & E4). exists b', run'.
    rewrite app_length, Nat.add_assoc. auto.
Qed.
Lemma alternating_nth R : alternating R -> forall i b1 r1 b2 r2,
  nth_error R i = Some (b1, r1) -> nth_error R (S i) = Some (b2, r2) -> b1 <> b2.
Proof.
  induction R as [|[b run] R IH]; intros A i b1 r1 b2 r2 E1 E2; [destruct i; discriminate|].
  destruct R as [|[b' run'] R].
  - destruct i; discriminate.
  - destruct A as [N A]. destruct i as [|i].
    + cbn [nth_error] in *. inv E1. inv E2. exact N.
    + exact (IH A i b1 r1 b2 r2 E1 E2).
Qed.

Theorem tokens_partition u d rs offset : is_text d rs ->
  let ts := tokenize u d offset in
  concat (map t_lit ts) = utf8s (removelast rs) /\
  (forall t, In t ts -> t_lit t <> []) /\
  (forall i t1 t2, nth_error ts i = Some t1 -> nth_error ts (S i) = Some t2 -> t_tag t1 <> t_tag t2) /\
  (forall i t, nth_error ts i = Some t ->
     t_pos t = (offset + nlen (concat (map t_lit (firstn i ts)))) mod 2 ^ 32) /\
  (forall t, In t ts -> exists cs, is_text (t_lit t) cs /\
     forall c, In c cs -> word_char u c = match t_tag t with Word => true | Other => false end).
Proof.
  intros T ts. unfold ts. rewrite (tokenize_text u d rs offset T).
  set (R := runs (word_char u) (removelast rs)).
  assert (RC : cat R = removelast rs) by apply runs_cat.
  assert (SC : Forall (fun br => Forall scalar (snd br)) R).
  { apply cat_scalars. rewrite RC. apply Forall_removelast, T. }
  assert (NE := runs_nonempty (word_char u) (removelast rs)). fold R in NE.
  assert (CL := runs_class (word_char u) (removelast rs)). fold R in CL.
  assert (AL := runs_alternating (word_char u) (removelast rs)). fold R in AL.
  rewrite Forall_forall in SC, NE, CL.
  assert (IN : forall t, In t (toks_of offset 0 R) -> exists b run, In (b, run) R /\ t_tag t = (if b then Word else Other) /\ t_lit t = utf8s run).
  { intros t Ht. apply In_nth_error in Ht. destruct Ht as [i Hi]. apply toks_of_nth in Hi.
    destruct Hi as (b & run & E1 & E2 & E3 & _). exists b, run. split; [eapply nth_error_In; exact E1|auto]. }
  split; [rewrite toks_of_lits, RC; reflexivity|].
  split; [|split; [|split]].
  - intros t Ht. destruct (IN t Ht) as (b & run & Hr & _ & ->). specialize (NE _ Hr). cbn [snd] in NE.
    destruct run as [|r run]; [congruence|]. rewrite utf8s_cons. pose proof (utf8_not_nil r).
    destruct (utf8 r); [congruence|discriminate].
  - intros i t1 t2 E1 E2. apply toks_of_nth in E1, E2.
    destruct E1 as (b1 & r1 & N1 & -> & _), E2 as (b2 & r2 & N2 & -> & _).
    pose proof (alternating_nth R AL i b1 r1 b2 r2 N1 N2). destruct b1, b2; congruence.
  - intros i t E. apply toks_of_nth in E. destruct E as (b & run & _ & _ & _ & ->).
    unfold u32, nlen. rewrite Nat.add_0_l. reflexivity.
  - intros t Ht. destruct (IN t Ht) as (b & run & Hr & -> & ->). exists run. split.
    + split; [exact (SC _ Hr)|reflexivity].
    + intros c Hc. specialize (CL _ Hr). cbn [fst snd] in CL. rewrite Forall_forall in CL.
      specialize (CL _ Hc). rewrite CL. destruct b; reflexivity.
Qed.

Theorem tokens_never_spell u d rs offset : is_text d rs -> d <> [] ->
  concat (map t_lit (tokenize u d offset)) <> d.
Proof.
  intros T Nd E. destruct (tokens_partition u d rs offset T) as (C & _). cbv zeta in C. rewrite E in C.
  destruct T as [S Ed]. destruct rs as [|r rs]; [apply Nd; rewrite Ed; reflexivity|].
  rewrite (app_removelast_last r (l := r :: rs)) in Ed by discriminate.
  rewrite utf8s_app in Ed. apply (f_equal (@length N)) in Ed, C. rewrite app_length in Ed.
  rewrite utf8s_cons, app_length in Ed. pose proof (utf8_nonempty (last (r :: rs) r)). lia.
Qed.

Theorem invalid_nothing u d : (forall rs, ~ is_text d rs) ->
  (forall offset, tokenize u d offset = []) /\
  (forall n seqlen bl did offset, shatter_do u n seqlen bl did offset d = Ok (bl, repeat [] n)) /\
  (forall c b dst path start end_, idx_blotter c = Ok b -> cf_token c = words_simple ->
     blot_doc u c dst (MkDoc path start end_ d) = Ok dst).
Proof.
  intros NT. assert (E : forall offset, tokenize u d offset = []) by (intros; apply tokenize_invalid, NT).
  split; [exact E|]. split.
  - intros. unfold shatter_do. rewrite E. reflexivity.
  - intros c b dst path start end_ Eb Et. unfold blot_doc, idx_tokenize, token_from_config. rewrite Et. cbn [d_dat d_start].
    rewrite Eb, E. reflexivity.
Qed.
