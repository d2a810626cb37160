(** The blot command, and what stretches of text are (for like). *)
From Verif Require Import Model.Base Model.Utf8 Model.Token Model.Blotter Model.Config Model.Index Model.Query Model.Cmd.
From Verif Require Import Spec.Text Spec.Fingerprint Spec.Configs.
From Verif Require Import Proof.Tactics Proof.Utf8P Proof.TokenP Proof.BlotterP Proof.ShatterP Proof.IndexP Proof.IndexP2 Proof.BlotsP.
Local Open Scope N_scope.

(** The length in bytes of some runs. *)
Definition size (R : list (bool * list N)) : nat := length (utf8s (cat R)).

Lemma size_cons b run R : size ((b, run) :: R) = (length (utf8s run) + size R)%nat.
Proof. unfold size, cat. cbn [map snd concat]. rewrite utf8s_app, app_length. reflexivity. Qed.
Lemma utf8s_nonempty run : run <> [] -> (0 < length (utf8s run))%nat.
Proof.
  destruct run as [|r run]; [congruence|intros _]. unfold utf8s. cbn [map concat]. rewrite app_length.
  assert (0 < length (utf8 r))%nat; [|lia]. unfold utf8. destruct (_ <? _); [cbn; lia|]. destruct (_ <? _); [cbn; lia|]. destruct (_ <? _); cbn; lia.
Qed.
Lemma size_firstn_mono R : Forall (fun br : bool * list N => snd br <> []) R -> forall a b, (a < b <= length R)%nat ->
  (size (firstn a R) < size (firstn b R))%nat.
Proof.
  induction 1 as [|[b0 run] R Hne F IH]; intros a b L; cbn [length] in L; [lia|].
  destruct b as [|b]; [lia|]. cbn [firstn]. rewrite size_cons. destruct a as [|a].
  - cbn [firstn]. change (size []) with 0%nat. pose proof (utf8s_nonempty run Hne). lia.
  - cbn [firstn]. rewrite size_cons. pose proof (IH a b ltac:(lia)). lia.
Qed.

Lemma toks_nth off R : forall pos j b run, nth_error R j = Some (b, run) ->
  nth_error (toks_of off pos R) j = Some (MkTok (if b then Word else Other) (utf8s run) (u32 (off + N.of_nat (pos + size (firstn j R))))).
Proof.
  induction R as [|[b0 r0] R IH]; intros pos [|j] b run E; cbn [nth_error] in E; try discriminate.
  - injection E as -> ->. cbn [toks_of nth_error firstn]. change (size []) with 0%nat. rewrite Nat.add_0_r. reflexivity.
  - cbn [toks_of nth_error firstn]. rewrite (IH _ _ _ _ E), size_cons. do 4 f_equal. lia.
Qed.
Lemma size_S R : forall j b run, nth_error R j = Some (b, run) -> size (firstn (S j) R) = (size (firstn j R) + length (utf8s run))%nat.
Proof.
  induction R as [|[b0 r0] R IH]; intros [|j] b run E; cbn [nth_error] in E; try discriminate.
  - injection E as -> ->. cbn [firstn]. rewrite size_cons. change (size []) with 0%nat. lia.
  - specialize (IH _ _ _ E). cbn [firstn] in *. rewrite !size_cons, IH. lia.
Qed.
(** Words are every other run. *)
Lemma spans_nth R : alternating R -> forall pos w s, nth_error (spans pos R) w = Some s ->
  exists run, let j := (2 * w + match R with (true, _) :: _ => 0 | _ => 1 end)%nat in
    nth_error R j = Some (true, run) /\ fst s = (pos + size (firstn j R))%nat /\ snd s = (fst s + length (utf8s run))%nat.
Proof.
  induction R as [|[b run0] R IH]; intros A pos w s E; [destruct w; discriminate|].
  assert (A' : alternating R) by (destruct R as [|[b' run'] R']; [exact I|]; exact (proj2 A)).
  cbn [spans] in E. destruct b.
  - destruct w as [|w]; cbn [nth_error] in E.
    + injection E as <-. exists run0. cbn [Nat.mul Nat.add nth_error firstn fst snd]. change (size []) with 0%nat.
      split; [reflexivity|]. split; lia.
    + destruct (IH A' _ _ _ E) as (run & En & E1 & E2). exists run. cbv zeta in *.
      destruct R as [|[b' run'] R']; [destruct w; discriminate|].
      destruct b'; [destruct A as [A _]; congruence|].
      replace (2 * S w + 0)%nat with (S (2 * w + 1)) by lia. cbn [nth_error firstn]. rewrite size_cons.
      split; [exact En|]. split; [rewrite E1; cbn [firstn] in *; lia|exact E2].
  - destruct (IH A' _ _ _ E) as (run & En & E1 & E2). exists run. cbv zeta in *.
    destruct R as [|[b' run'] R']; [destruct w; discriminate|].
    destruct b'; [|destruct A as [A _]; congruence].
    replace (2 * w + 1)%nat with (S (2 * w + 0)) by lia. cbn [nth_error firstn]. rewrite size_cons.
    split; [exact En|]. split; [rewrite E1; cbn [firstn] in *; lia|exact E2].
Qed.

Section B.
  Context (u : unicode) (c : config) (k m n : nat).
  Hypothesis C : cfg_ok c k m n.
  Hypothesis Hn : N.of_nat n < 65536.
  Notation H := (word_hash u).
  Notation wc := (word_char u).

  Lemma space : blot_space c = N.of_nat n * 65536.
  Proof. apply (blot_space_ok c k m n C Hn). Qed.
  Lemma space_pos : (blot_space c =? 0) = false.
  Proof. rewrite space. pose proof (co_n _ _ _ _ C). apply N.eqb_neq. lia. Qed.

  Lemma tok_at_nat toks i : tok_at toks (Z.of_nat i) = match nth_error toks i with None => Panic | Some t => Ok t end.
  Proof. unfold tok_at. destruct (Z.ltb_spec (Z.of_nat i) 0); [lia|]. rewrite Nat2Z.id. reflexivity. Qed.
  Lemma tok_range_nat toks i t0 t1 : nth_error toks i = Some t0 -> nth_error toks (i + k * m) = Some t1 ->
    tok_range c toks (Z.of_nat i) = Ok (t_pos t0, add32 (t_pos t1) (u32 (nlen (t_lit t1)))).
  Proof.
    intros E0 E1. unfold tok_range. rewrite (co_seqlen _ _ _ _ C), <- Nat2Z.inj_add, !tok_at_nat, E0. cbn [bind]. rewrite E1. reflexivity.
  Qed.

  Lemma blot_lines_plain toks : forall blots i, blot_lines c false toks i blots = Ok (map (fun b => (b mod (N.of_nat n * 65536), None)) blots).
  Proof.
    induction blots as [|b r IH]; intros i; [reflexivity|]. cbn [blot_lines bind map]. rewrite space_pos, IH, space. reflexivity.
  Qed.
  Lemma blot_lines_offsets toks : forall blots i, (i + length blots + k * m <= length toks)%nat ->
    exists lines, blot_lines c true toks (Z.of_nat i) blots = Ok lines /\
      map fst lines = map (fun b => b mod (N.of_nat n * 65536)) blots /\
      forall j b r, nth_error lines j = Some (b, r) -> exists t0 t1, nth_error toks (i + j) = Some t0 /\ nth_error toks (i + j + k * m) = Some t1 /\
        r = Some (t_pos t0, add32 (t_pos t1) (u32 (nlen (t_lit t1)))).
  Proof.
    induction blots as [|b r IH]; intros i L.
    - exists []. split; [reflexivity|]. split; [reflexivity|]. intros [|j] ? ? E; discriminate.
    - cbn [length] in L. destruct (IH (S i) ltac:(lia)) as (lines & E & Em & V). cbn [blot_lines].
      destruct (nth_some toks i ltac:(lia)) as [t0 E0]. destruct (nth_some toks (i + k * m) ltac:(lia)) as [t1 E1].
      rewrite (tok_range_nat _ _ _ _ E0 E1). cbn [bind]. rewrite space_pos.
      replace (Z.of_nat i + 1)%Z with (Z.of_nat (S i)) by lia. rewrite E. cbn [bind]. rewrite space.
      eexists. split; [reflexivity|]. split; [cbn [map fst]; rewrite Em; reflexivity|].
      intros [|j] b' r' En; cbn [nth_error] in En.
      + injection En as <- <-. exists t0, t1. rewrite Nat.add_0_r. auto.
      + destruct (V _ _ _ En) as (t0' & t1' & A1 & A2 & A3). exists t0', t1'.
        replace (i + S j)%nat with (S i + j)%nat by lia. auto.
  Qed.

  Lemma filter_len {A} (f : A -> bool) l : (length (filter f l) <= length l)%nat.
  Proof. induction l as [|a l IH]; cbn [filter length]; [lia|]. destruct (f a); cbn [length]; lia. Qed.
  Lemma toks_of_len off R : forall pos, length (toks_of off pos R) = length R.
  Proof. induction R as [|[b r] R IH]; intros pos; [reflexivity|]. cbn [toks_of length]. rewrite IH. reflexivity. Qed.
  Lemma spec_blots_len Hf ws : length (spec_blots Hf k m ws) = (length ws - k * m)%nat.
  Proof. unfold spec_blots. rewrite map_length, seq_length. reflexivity. Qed.

  Theorem blot_plain fname dat ws : doc_words wc dat ws ->
    blot_file u c false fname dat = Ok (map (fun b => (b mod (N.of_nat n * 65536), None)) (spec_blots H k m ws)).
  Proof.
    intros W. unfold blot_file. rewrite (blot_doc_spec u c k m n [] (MkDoc fname 0 (u32 (nlen dat)) dat) ws C W). cbn [bind app]. apply blot_lines_plain.
  Qed.

  (** What is printed with -offsets: the runs are counted, not the words. *)
  Theorem blot_offsets fname dat ws : doc_words wc dat ws -> nlen dat < 2 ^ 32 ->
    exists lines, blot_file u c true fname dat = Ok lines /\
      map fst lines = map (fun b => b mod (N.of_nat n * 65536)) (spec_blots H k m ws) /\
      forall i b r, nth_error lines i = Some (b, r) ->
        exists rs, is_text dat rs /\ let R := runs wc (removelast rs) in
          r = Some (N.of_nat (size (firstn i R)), N.of_nat (size (firstn (S (i + k * m)) R))) /\ (i + k * m < length R)%nat.
  Proof.
    intros W L. unfold blot_file. rewrite (blot_doc_spec u c k m n [] (MkDoc fname 0 (u32 (nlen dat)) dat) ws C W). cbn [bind app].
    rewrite (idx_tokenize_ok u c k m n dat 0 C). cbn [bind].
    destruct W as [(rs & T & ->)|(NT & ->)].
    - rewrite (tokenize_text u dat rs 0 T). set (R := runs wc (removelast rs)).
      assert (Lw : (length (words wc (removelast rs)) <= length R)%nat) by (unfold words; rewrite map_length; apply filter_len).
      destruct (Nat.le_gt_cases (length (words wc (removelast rs))) (k * m)) as [Sh|Lo].
      + assert (spec_blots H k m (words wc (removelast rs)) = []) as ->.
        { apply length_zero_iff_nil. rewrite spec_blots_len. lia. }
        exists []. split; [reflexivity|]. split; [reflexivity|]. intros [|i] ? ? E; discriminate.
      + destruct (blot_lines_offsets (toks_of 0 0 R) (spec_blots H k m (words wc (removelast rs))) 0) as (lines & E & Em & V).
        { rewrite toks_of_len, spec_blots_len. lia. }
        exists lines. split; [exact E|]. split; [exact Em|]. intros i b r En. exists rs. split; [exact T|]. cbv zeta. fold R.
        destruct (V _ _ _ En) as (t0 & t1 & E0 & E1 & ->). cbn [Nat.add] in E0, E1.
        assert (L1 : (i + k * m < length R)%nat) by (rewrite <- (toks_of_len 0 R 0); apply nth_error_Some; congruence).
        split; [|exact L1].
        destruct (nth_some R i ltac:(lia)) as [[b0 r0] F0]. destruct (nth_some R (i + k * m) ltac:(lia)) as [[b1 r1] F1].
        rewrite (toks_nth 0 R 0 _ _ _ F0) in E0. rewrite (toks_nth 0 R 0 _ _ _ F1) in E1. injection E0 as <-. injection E1 as <-.
        cbn [t_pos t_lit Nat.add]. rewrite (size_S _ _ _ _ F1).
        assert (B : forall j, (size (firstn j R) <= length dat)%nat).
        { intros j. destruct T as [_ ->]. unfold size. transitivity (length (utf8s (removelast rs))).
          - rewrite <- (runs_cat wc (removelast rs)). fold R. rewrite <- (firstn_skipn j R) at 2. unfold cat.
            rewrite map_app, concat_app, utf8s_app, app_length. lia.
          - destruct (removelast_app_last rs) as [->|[x ->]]; [cbn; lia|]. rewrite removelast_last, utf8s_app, app_length. lia. }
        pose proof (B i) as B0. pose proof (B (S (i + k * m))) as B1. rewrite (size_S _ _ _ _ F1) in B1. unfold nlen in L.
        assert (P : 2 ^ 32 = 4294967296) by reflexivity.
        unfold add32, u32, nlen. rewrite !N.add_0_l. rewrite <- N.add_mod by lia. rewrite !N.mod_small by lia. f_equal. f_equal. lia.
    - assert (spec_blots H k m [] = []) as ->. { apply length_zero_iff_nil. rewrite spec_blots_len. cbn. lia. }
      exists []. split; [reflexivity|]. split; [reflexivity|]. intros [|i] ? ? E; discriminate.
  Qed.

  Lemma text_same dat rs rs' : is_text dat rs -> is_text dat rs' -> rs' = rs.
  Proof. intros [F ->] [F' E]. symmetry. apply utf8s_inj; auto. Qed.

  (** ... so no printed range is right. *)
  Theorem blot_offsets_never_right fname dat sp lines i b s e : doc_spans wc dat sp -> nlen dat < 2 ^ 32 ->
    blot_file u c true fname dat = Ok lines -> nth_error lines i = Some (b, Some (s, e)) ->
    exists right, nth_error sp (i + k * m) = Some right /\ e < N.of_nat (snd right).
  Proof.
    intros S L E En. destruct (doc_words_total u dat) as [ws W].
    destruct (blot_offsets fname dat ws W L) as (lines' & E' & Em & V). assert (lines' = lines) as -> by congruence.
    destruct (V _ _ _ En) as (rs & T & Er & Lr). cbv zeta in Er, Lr. injection Er as -> ->.
    assert (Li : (i < length ws - k * m)%nat).
    { rewrite <- (spec_blots_len H ws), <- (map_length (fun b => b mod (N.of_nat n * 65536))), <- Em, map_length. apply nth_error_Some. congruence. }
    destruct (doc_toks u dat 0 ws sp W S) as [_ F2].
    assert (Ls : length ws = length sp). { clear -F2. induction F2; cbn; congruence. }
    destruct (nth_some sp (i + k * m) ltac:(lia)) as [right Hr]. exists right. split; [exact Hr|].
    destruct S as [(rs' & T' & ->)|(NT & _)]; [|exfalso; eapply NT; eauto].
    rewrite (text_same _ _ _ T T') in *. unfold word_spans in Hr.
    destruct (spans_nth _ (runs_alternating wc (removelast rs)) _ _ _ Hr) as (run & Ej & E1 & E2). cbv zeta in *.
    set (R := runs wc (removelast rs)) in *. set (j := (2 * (i + k * m) + match R with (true, _) :: _ => 0 | _ => 1 end)%nat) in *.
    assert (Lj : (j < length R)%nat) by (apply nth_error_Some; congruence).
    pose proof (co_k _ _ _ _ C). pose proof (co_m _ _ _ _ C). assert (1 <= k * m)%nat by nia.
    assert (Hj : (S (i + k * m) < S j)%nat).
    { unfold j. generalize (match R with (true, _) :: _ => 0 | _ => 1 end)%nat. intros x. lia. }
    pose proof (size_firstn_mono R (runs_nonempty wc (removelast rs)) (S (i + k * m)) (S j) ltac:(lia)) as M.
    rewrite (size_S _ _ _ _ Ej) in M. change (N.of_nat (size (firstn (S (i + k * m)) R)) < N.of_nat (snd right)). lia.
  Qed.
End B.
