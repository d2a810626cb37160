(** The unblot command. *)
From Verif Require Import Model.Base Model.Utf8 Model.Token Model.Blotter Model.Shatter Model.Config Model.Conc Model.Index Model.Query Model.Session Model.Cmd.
From Verif Require Import Spec.Text Spec.Fingerprint Spec.Configs Spec.Querying Spec.History Spec.Reading Spec.Paths Spec.Stretch.
From Verif Require Import Proof.Tactics Proof.Utf8P Proof.TokenP Proof.BlotterP Proof.ShatterP Proof.IndexP Proof.IndexP2 Proof.FindP Proof.BlotsP Proof.QueryP Proof.SessionP Proof.SessionP2 Proof.CmdP Proof.StretchP Proof.LikeP Proof.LikeP2.
Local Open Scope N_scope.

Notation dkey := (bytes * N * N)%type.
(** The groups made of a list of texts and keys. *)
Definition group (L : list (bytes * dkey)) : groups := fold_left (fun m p => add_text m (fst p) (snd p)) L [].
Definition keys_with (t : bytes) (L : list (bytes * dkey)) : list dkey := map snd (filter (fun p => eq_bytes (fst p) t) L).

Lemma add_text_fst m t key : forall x, In x (map fst (add_text m t key)) <-> x = t \/ In x (map fst m).
Proof.
  induction m as [|[t' l] m IH]; intros x; cbn [add_text map fst In].
  - split; intros [A|[]]; left; congruence.
  - destruct (eq_bytes t' t) eqn:E; cbn [map fst In].
    + apply eq_bytes_spec in E. subst t'. split; [tauto|]. intros [->|?]; tauto.
    + rewrite IH. tauto.
Qed.
Lemma add_text_nodup m t key : NoDup (map fst m) -> NoDup (map fst (add_text m t key)).
Proof.
  induction m as [|[t' l] m IH]; intros ND; cbn [add_text map fst].
  - constructor; [intros []|constructor].
  - apply NoDup_cons_iff in ND. destruct ND as [N1 N2]. destruct (eq_bytes t' t) eqn:E; cbn [map fst].
    + constructor; assumption.
    + constructor; [|auto]. rewrite add_text_fst. intros [->|Hin]; [|contradiction].
      assert (eq_bytes t t = true) by (apply eq_bytes_spec; reflexivity). congruence.
Qed.
(** The keys under a text (none if it is not there). *)
Fixpoint under (t : bytes) (m : groups) : list dkey :=
  match m with [] => [] | (t', l) :: r => if eq_bytes t' t then l else under t r end.
Lemma under_add m t key : NoDup (map fst m) -> forall x, under x (add_text m t key) = under x m ++ (if eq_bytes t x then [key] else []).
Proof.
  induction m as [|[t' l] m IH]; intros ND x; cbn [add_text under].
  - destruct (eq_bytes t x); reflexivity.
  - apply NoDup_cons_iff in ND. destruct ND as [N1 N2]. destruct (eq_bytes t' t) eqn:E; cbn [under].
    + apply eq_bytes_spec in E. subst t'. destruct (eq_bytes t x) eqn:Ex; [reflexivity|]. rewrite app_nil_r. reflexivity.
    + rewrite (IH N2). destruct (eq_bytes t' x) eqn:Ex; [|reflexivity]. apply eq_bytes_spec in Ex. subst t'.
      destruct (eq_bytes t x) eqn:Et; [|rewrite app_nil_r; reflexivity]. apply eq_bytes_spec in Et. subst t.
      assert (eq_bytes x x = true) by (apply eq_bytes_spec; reflexivity). congruence.
Qed.
Lemma in_under m : NoDup (map fst m) -> (forall t l, In (t, l) m -> l <> []) -> forall t l, In (t, l) m <-> l <> [] /\ l = under t m.
Proof.
  induction m as [|[t' l'] m IH]; intros ND Hne t l; cbn [In under].
  - split; [intros []|]. intros [A ->]. congruence.
  - cbn [map fst] in ND. apply NoDup_cons_iff in ND. destruct ND as [N1 N2].
    assert (IH' := IH N2 (fun t l A => Hne t l (or_intror A)) t l). split.
    + intros [E|Hin].
      * injection E as -> ->. split; [apply (Hne t l); left; reflexivity|].
        assert (eq_bytes t t = true) as -> by (apply eq_bytes_spec; reflexivity). reflexivity.
      * split; [apply (Hne t l); right; exact Hin|]. destruct (eq_bytes t' t) eqn:E; [|apply IH', Hin].
        apply eq_bytes_spec in E. subst t'. exfalso. apply N1. apply in_map_iff. exists (t, l). auto.
    + intros [A B]. destruct (eq_bytes t' t) eqn:E; [left; apply eq_bytes_spec in E; congruence|]. right. apply IH'. auto.
Qed.
Lemma group_snoc L p : group (L ++ [p]) = add_text (group L) (fst p) (snd p).
Proof. unfold group. rewrite fold_left_app. reflexivity. Qed.
Lemma group_spec L : NoDup (map fst (group L)) /\ (forall t l, In (t, l) (group L) -> l <> []) /\ forall t, under t (group L) = keys_with t L.
Proof.
  induction L as [|p L (ND & Hne & U)] using rev_ind.
  - split; [constructor|]. split; [intros ? ? []|reflexivity].
  - rewrite group_snoc. split; [apply add_text_nodup, ND|]. split.
    + destruct p as [t0 key]. cbn [fst snd]. generalize dependent (group L). clear. intros m ND Hne _.
      induction m as [|[t' l'] m IH]; intros t l; cbn [add_text In].
      * intros [E|[]]. injection E as <- <-. discriminate.
      * cbn [map fst] in ND. apply NoDup_cons_iff in ND. destruct ND as [N1 N2]. destruct (eq_bytes t' t0); cbn [In].
        -- intros [E|Hin]; [injection E as <- <-; destruct l'; discriminate|]. apply (Hne t l). right. exact Hin.
        -- intros [E|Hin]; [injection E as <- <-; apply (Hne t' l'); left; reflexivity|].
           apply (IH N2 (fun t l A => Hne t l (or_intror A)) t l Hin).
    + intros t. rewrite under_add by exact ND. rewrite U. unfold keys_with. rewrite filter_app, map_app. cbn [filter]. destruct (eq_bytes (fst p) t); reflexivity.
Qed.

Section U.
  Context (u : unicode) (c : config) (k m n : nat).
  Hypothesis C : cfg_ok c k m n.
  Hypothesis Hn : N.of_nat n < 65536.
  Notation H := (word_hash u).
  Notation wc := (word_char u).
  Notation space := (N.of_nat n * 65536).
  Notation window := (stretch (k * m)).

  Notation first_window := (first_window H k m n).
  Notation text_at := (text_at H k m n wc).
  Notation outcome := (outcome H k m n wc).
  Section Run.
    Variables (fs : files) (ix : index).
    Hypothesis Ec : ix_cfg ix = c.
    Lemma missing_no_file path start end_ dat : missing fs (path, start, end_) -> ~ in_file fs (path, start, end_) dat.
    Proof.
      intros [E|(content & E & A & B & L)] (c' & b & a & E' & Ec' & Hc); [congruence|].
      destruct Hc as [(-> & -> & _)|(_ & _ & E1 & E2)]; [lia|]. assert (c' = content) as -> by congruence.
      rewrite Ec' in L. unfold nlen in *. rewrite !app_length in L. lia.
    Qed.
    Lemma missing_load path start end_ : missing fs (path, start, end_) -> doc_load fs path start end_ = Err EOther.
    Proof.
      intros [E|(content & E & A & B & L)]; unfold doc_load; rewrite E; [reflexivity|].
      destruct (N.eqb_spec end_ 0); [lia|]. rewrite andb_false_r.
      assert (Es : sub32 end_ start = end_ - start).
      { unfold sub32, u32. change (2 ^ 32) with 4294967296 in B. clear -A B.
        replace (end_ + 4294967296 - start) with (end_ - start + 1 * 4294967296) by lia. rewrite N.mod_add by lia. apply N.mod_small. lia. }
      rewrite Es. unfold pread. destruct (Z.ltb_spec (Z.of_N start) 0); [lia|]. destruct (Z.leb_spec (Z.of_N (end_ - start)) 0); [lia|].
      unfold zlen, nlen in *. destruct (Z.leb_spec (Z.of_N start + Z.of_N (end_ - start)) (Z.of_nat (length content))); [lia|reflexivity].
    Qed.
    Lemma in_file_end path start end_ dat d : in_file fs (path, start, end_) dat -> start + nlen dat < 2 ^ 32 ->
      doc_load fs path start end_ = Ok d -> (d_path d, d_start d, d_end d) = shown (path, start, end_) dat.
    Proof.
      intros I L. destruct I as (content & b & a & Ef & Ect & Hc). unfold doc_load. rewrite Ef. unfold shown.
      destruct Hc as [(-> & -> & -> & ->)|(A & B & E1 & E2)].
      - cbn [N.eqb andb]. intros E. injection E as <-. cbn [d_path d_start d_end]. rewrite Ect. cbn [app] in *. rewrite app_nil_r in *.
        unfold u32. change (2 ^ 32) with 4294967296 in L. rewrite N.mod_small by lia. reflexivity.
      - destruct (N.eqb_spec end_ 0); [lia|]. rewrite andb_false_r. destruct (pread _ _ _); try discriminate.
        intros E. injection E as <-. cbn [d_path d_start d_end]. f_equal. lia.
    Qed.
    Lemma in_file_unique key d d' : in_file fs key d -> in_file fs key d' -> d = d'.
    Proof.
      destruct key as [[p s] e]. intros A B. destruct (in_file_load _ _ _ _ _ A) as (x & E1 & <- & _). destruct (in_file_load _ _ _ _ _ B) as (y & E2 & <- & _). congruence.
    Qed.

    Lemma unblot_step q key rest g : readable fs key -> exists o, outcome fs q key o /\
      unblot_docs u fs ix q (key :: rest) g = unblot_docs u fs ix q rest (match o with None => g | Some (t, sh) => add_text g t sh end).
    Proof.
      destruct key as [[path start] end_]. intros [M|(dat & If & Lf)].
      { exists None. cbn [unblot_docs]. rewrite (missing_load _ _ _ M). cbn [bind]. split; [|reflexivity].
        intros dat t [I _]. eapply missing_no_file; eauto. }
      cbn [fits32] in Lf. cbn [unblot_docs].
      destruct (in_file_load _ _ _ _ _ If) as (d & Ed & Edat & Est). pose proof (in_file_end _ _ _ _ _ If Lf Ed) as Esh. rewrite Ed. cbn [bind]. rewrite Ec.
      destruct (doc_words_total u dat) as [ws W]. destruct (doc_spans_total u dat) as [sp Sp].
      destruct (find_blot_first u c k m n C Hn d q ws sp) as [(i & a & z & Ci & Fi & Ea & Ez & _ & Ef)|(No & Ef)]; try (rewrite Edat; assumption).
      { rewrite Edat, Est. exact Lf. }
      - rewrite Ef. cbn [bind]. exists (Some (sub (fst a) (snd z) dat, shown (path, start, end_) dat)).
        pose proof Ci as [Li _].
        assert (X : slice (d_dat d) (sub32 (d_start d + N.of_nat (fst a)) (d_start d)) (sub32 (d_start d + N.of_nat (snd z)) (d_start d)) = Ok (sub (fst a) (snd z) dat)).
        { pose proof (doc_spans_mono u dat sp (i - k * m) i a z Sp ltac:(lia) Ea Ez) as Mo.
          destruct (Forall2_in_r _ _ _ _ _ (doc_span_words u dat ws sp W Sp) Ez) as (_ & _ & _ & Bz). 
          change (2 ^ 32) with 4294967296 in Lf. unfold nlen in Lf.
          assert (Es : forall x, (x <= length dat)%nat -> sub32 (d_start d + N.of_nat x) (d_start d) = N.of_nat x).
          { intros x Lx. unfold sub32, u32. rewrite Est. replace (start + N.of_nat x + 4294967296 - start) with (N.of_nat x + 1 * 4294967296) by lia.
            rewrite N.mod_add by lia. apply N.mod_small. lia. }
          rewrite !Es by lia. unfold slice, nlen. rewrite Edat.
          destruct (N.leb_spec (N.of_nat (fst a)) (N.of_nat (snd z))); [|lia].
          destruct (N.leb_spec (N.of_nat (snd z)) (N.of_nat (length dat))); [|lia]. cbn [andb]. rewrite !Nat2N.id. reflexivity. }
        rewrite X. cbn [bind]. rewrite Esh. split; [|reflexivity].
        exists dat. split; [|reflexivity]. split; [exact If|]. exists ws, sp. split; [exact W|]. split; [exact Sp|].
        exists (i - k * m)%nat. replace (i - k * m + k * m)%nat with i by lia. split; [exact Ci|]. split; [exact Fi|].
        exists a, z. replace (i - k * m + k * m)%nat with i by lia. auto.
      - rewrite Ef. exists None. cbn [bind]. split; [|reflexivity]. intros dat' t [I (ws' & sp' & W' & _ & (i & Ci & _))].
        assert (dat' = dat) as -> by (eapply in_file_unique; eauto).
        assert (ws' = ws) as ->; [|exact (No _ Ci)].
        destruct W' as [(r & T & ->)|(NT & ->)], W as [(r' & T' & ->)|(NT' & ->)]; [rewrite (text_same _ _ _ T T'); reflexivity|exfalso; eapply NT'; eauto|exfalso; eapply NT; eauto|reflexivity].
    Qed.
    Definition outcomes (os : list (option (bytes * dkey))) : list (bytes * dkey) :=
      concat (map (fun o => match o with None => [] | Some p => [p] end) os).
    Lemma unblot_all q keys : Forall (readable fs) keys -> forall L, exists os, Forall2 (outcome fs q) keys os /\
      unblot_docs u fs ix q keys (group L) = Ok (group (L ++ outcomes os)).
    Proof.
      induction 1 as [|key keys R F IH]; intros L.
      - exists []. split; [constructor|]. cbn. rewrite app_nil_r. reflexivity.
      - destruct (unblot_step q key keys (group L) R) as (o & Ho & ->). destruct o as [[t sh]|].
        + destruct (IH (L ++ [(t, sh)])) as (os & Hos & E). exists (Some (t, sh) :: os). split; [constructor; assumption|].
          rewrite group_snoc in E. cbn [fst snd] in E. rewrite E. unfold outcomes. cbn [map concat app]. rewrite <- app_assoc. reflexivity.
        + destruct (IH L) as (os & Hos & E). exists (None :: os). split; [constructor; assumption|]. rewrite E. reflexivity.
    Qed.
  End Run.

  Theorem unblot_exact fs grow ix content place fuel q : ix_cfg ix = c -> index_ok ix n content place ->
    (length (at_blot n content q) < fuel)%nat ->
    (forall id, In id (at_blot n content q) -> readable fs (place id)) ->
    exists os g, Forall2 (fun id o => outcome fs q (place id) o) (at_blot n content q) os /\
      unblot u fs grow ix fuel true q = Ok g /\
      unblot u fs grow ix fuel false q = Ok (filter (fun p => (2 <=? length (snd p))%nat) g) /\
      NoDup (map fst g) /\
      forall t l, In (t, l) g <-> l <> [] /\ l = keys_with t (outcomes os).
  Proof.
    intros Ec I Hf Hr. unfold unblot.
    destruct (get_unlimited grow ix _ n _ I q fuel) as (ds & Eg & _ & El); [exact Hf|]. rewrite Eg. cbn [bind].
    assert (Ek : keys_of ds = map place (at_blot n content q)).
    { transitivity (docs_keys ds); [destruct ds as [[l back]|]; reflexivity|]. unfold docs_keys. rewrite El, map_map. apply map_ext.
      intros d. unfold key_doc, doc_key. destruct (place d) as [[p a] z]. reflexivity. }
    rewrite Ek. destruct (unblot_all fs ix Ec q (map place (at_blot n content q))) with (L := @nil (bytes * dkey)) as (os & Hos & E).
    { apply Forall_forall. intros key Hin. apply in_map_iff in Hin. destruct Hin as (id & <- & Hi). auto. }
    exists os, (group (outcomes os)). cbn [app] in E. change (group []) with (@nil (bytes * list dkey)) in E. rewrite E. cbn [bind].
    destruct (group_spec (outcomes os)) as (ND & Hne & U). split.
    { clear -Hos. remember (map place (at_blot n content q)) as K eqn:EK. revert EK. generalize (at_blot n content q). induction Hos as [|x o K os Ho Hos IH]; intros [|id ids] EK; try discriminate; constructor.
      - cbn [map] in EK. injection EK as -> _. exact Ho.
      - apply IH. cbn [map] in EK. injection EK as _ ->. reflexivity. }
    split; [f_equal; clear; induction (group (outcomes os)) as [|x l IH]; [reflexivity|]; cbn [filter]; rewrite orb_true_l; f_equal; exact IH|].
    split; [reflexivity|]. split; [exact ND|]. intros t l. rewrite <- U. apply in_under; assumption.
  Qed.
  (** Blots that are too large are found by no document. *)
  Lemma no_large_outcome fs q key o : space <= q -> outcome fs q key o -> o = None.
  Proof.
    intros L. destruct o as [[t sh]|]; [|reflexivity]. intros (dat & (_ & ws & sp & _ & _ & (i & [_ E] & _)) & _). exfalso.
    pose proof (co_n _ _ _ _ C) as Hp. pose proof (N.mod_lt (blot_of H k m (firstn (S (i + k * m)) ws)) space ltac:(lia)). lia.
  Qed.
End U.
