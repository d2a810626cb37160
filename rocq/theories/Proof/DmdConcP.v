(** Concurrent lookups. *)
From Verif Require Import Model.Base Model.Address Model.Varint Model.Post Model.Poster Model.Shard Model.Dmd Model.Fnames Model.Index Model.Query Model.DmdConc.
From Verif Require Import Spec.Reading Spec.Querying Spec.Turns Proof.Tactics Proof.QueryP.
Local Open Scope N_scope.

(** The program of Get is Get. *)
Lemma get_prog_loop_alone grow ix file : forall fuel lim ps ds,
  alone (ix_dmd ix) (get_prog_loop grow ix fuel lim file ps ds) = get_loop grow ix fuel lim file ps ds.
Proof.
  induction fuel as [|k IH]; intros lim ps ds; cbn [get_prog_loop get_loop alone]; [reflexivity|].
  destruct (_ && _); [reflexivity|]. destruct (posts_next ps file) as [[did ps']|[| ]| |]; try reflexivity. cbn [alone].
  unfold docid2doc. destruct (dmd_lookup (ix_dmd ix) did) as [fl| | |]; cbn [bind]; try reflexivity.
  destruct (fn_abs (ix_fnames ix) (f_fid fl)) as [path| | |]; cbn [bind]; try reflexivity.
  destruct (put_doc grow lim ds path (f_start fl) (f_end fl)); cbn [bind]; try reflexivity. apply IH.
Qed.
Theorem get_prog_alone grow ix fuel blot ds : alone (ix_dmd ix) (get_prog grow ix fuel blot ds) = query_get grow ix fuel blot ds.
Proof.
  unfold get_prog, query_get, get_address. destruct (_ =? 0); [reflexivity|]. cbn [bind]. destruct (nth_error _ _); [|reflexivity]. apply get_prog_loop_alone.
Qed.

Lemma nth_upd {A} i j (x : A) l : nth_error (upd i x l) j = if (i =? j)%nat then (match nth_error l j with Some _ => Some x | None => None end) else nth_error l j.
Proof.
  revert j l. induction i as [|i IH]; intros [|j] [|y l]; cbn [upd nth_error Nat.eqb]; try reflexivity.
  - destruct (Nat.eqb i j); reflexivity.
  - apply IH.
Qed.

(** * One at a time *)
Section T.
  Context {A : Type}.
  Variable f : bytes.
  (** What a lookup reads, from where it is. *)
  Definition on_track (pos : nat -> nat) (r : result A) (g : goroutine A) : Prop :=
    match g_do g with
    | Running p => alone f p = r
    | Reading got k => exists did, pos (g_h g) = (N.to_nat did * 12 + length got)%nat /\ (length got < 12)%nat /\
        (length got = 0 \/ N.to_nat did * 12 + length got <= length f)%nat /\
        got = firstn (length got) (skipn (N.to_nat did * 12) f) /\ alone f (k (dmd_lookup f did)) = r
    end.
  Lemma firstn_plus {B} a b (l : list B) : firstn (a + b) l = firstn a l ++ firstn b (skipn a l).
  Proof. revert l. induction a as [|a IH]; intros [|x l]; cbn [Nat.add firstn skipn app]; rewrite ?firstn_nil; try reflexivity. f_equal. apply IH. Qed.
  Lemma skipn_plus {B} a b (l : list B) : skipn (a + b) l = skipn b (skipn a l).
  Proof. revert l. induction a as [|a IH]; intros [|x l]; cbn [Nat.add skipn]; rewrite ?skipn_nil; try reflexivity. apply IH. Qed.
  Lemma step_track i pos gs pos' gs' (rs : list (result A)) : cstep f i (pos, gs) (pos', gs') -> turns i (pos, gs) ->
    (forall j g, nth_error gs j = Some g -> exists r, nth_error rs j = Some r /\ on_track pos r g) ->
    forall j g, nth_error gs' j = Some g -> exists r, nth_error rs j = Some r /\ on_track pos' r g.
  Proof.
    intros S T H.
    assert (Rest : forall gi v g', nth_error gs i = Some gi -> g_h g' = g_h gi -> pos' = set_pos pos (g_h gi) v -> gs' = upd i g' gs ->
      (forall r, nth_error rs i = Some r -> on_track pos r gi -> on_track pos' r g') ->
      forall j g, nth_error gs' j = Some g -> exists r, nth_error rs j = Some r /\ on_track pos' r g).
    { intros gi v g' Ei Eh -> -> X j g Ej. rewrite nth_upd in Ej. destruct (Nat.eqb_spec i j) as [<-|Ne].
      - rewrite Ei in Ej. assert (g = g') as -> by congruence. destruct (H i gi Ei) as (r & Er & Tr). exists r. split; [exact Er|]. apply X; assumption.
      - destruct (H j g Ej) as (r & Er & Tr). exists r. split; [exact Er|]. unfold on_track in *. destruct (g_do g) as [p|got k] eqn:Eg; [exact Tr|].
        destruct Tr as (did & Ep & R). exists did. split; [|exact R]. unfold set_pos. destruct (Nat.eqb_spec (g_h g) (g_h gi)) as [E|_]; [|exact Ep].
        pose proof (T j gi g Ei Ej (not_eq_sym Ne) E) as C. unfold reading in C. rewrite Eg in C. discriminate. }
    inversion S as [i0 p0 gs0 h did k Ei E1 E2 E3|i0 p0 gs0 h got k b Ei Eb E1 E2 E3]; subst i0 p0 gs0.
    - rewrite E3, H1. refine (Rest _ (N.to_nat did * 12)%nat (MkGo h (Reading [] k)) Ei eq_refl (eq_sym E3) (eq_sym H1) _). clear Rest.
      intros r _ Tr. rewrite <- E3. clear E3. unfold on_track in *. cbn [g_do g_h] in *. exists did. cbn [length firstn alone] in *. unfold set_pos. rewrite Nat.eqb_refl.
      split; [lia|]. split; [lia|]. split; [left; reflexivity|]. split; [reflexivity|exact Tr].
    - rewrite E3. match goal with E : upd i ?g gs = gs' |- _ => rewrite E; refine (Rest _ (pos h + length b)%nat g Ei eq_refl (eq_sym E3) (eq_sym E) _); clear Rest E end.
      intros r _ Tr. rewrite <- E3. clear E3. unfold on_track in *. cbn [g_do g_h] in *. destruct Tr as (did & Ep & Lg & In & Eg & Al).
      set (a := (N.to_nat did * 12)%nat) in *. set (tl := skipn a f).
      assert (Eb' : b = firstn (12 - length got) (skipn (length got) tl)) by (rewrite Eb, Ep; unfold tl; rewrite skipn_plus; reflexivity).
      assert (Egb : got ++ b = firstn 12 tl).
      { replace (firstn 12 tl) with (firstn (length got + (12 - length got)) tl) by (f_equal; lia). rewrite firstn_plus, <- Eb'. f_equal. exact Eg. }
      assert (Lt : length tl = (length f - a)%nat) by (unfold tl; apply skipn_length).
      assert (Rd : dmd_lookup f did = if (a + 12 <=? length f)%nat then
          Ok (MkFields (be32 (sub 0 4 (firstn 12 tl))) (be32 (sub 4 8 (firstn 12 tl))) (be32 (sub 8 12 (firstn 12 tl))))
        else Err (if (a <? length f)%nat then EOther else EOF)).
      { unfold dmd_lookup, read_full, pread. assert ((Z.of_N did * 12 <? 0)%Z = false) as -> by lia. cbn [Z.leb].
        change (12 <=? 0)%Z with false. cbv iota. unfold zlen. assert (Z.to_nat (Z.of_N did * 12) = a) as -> by (unfold a; lia).
        destruct (Z.leb_spec (Z.of_N did * 12 + 12) (Z.of_nat (length f))) as [L|L]; destruct (Nat.leb_spec (a + 12) (length f)) as [L2|L2]; try (exfalso; unfold a in *; lia).
        - reflexivity.
        - cbn [bind]. destruct (Z.ltb_spec (Z.of_N did * 12) (Z.of_nat (length f))) as [M|M]; destruct (Nat.ltb_spec a (length f)) as [M2|M2]; try (exfalso; unfold a in *; lia); reflexivity. }
      assert (Lgb : length (got ++ b) = Nat.min 12 (length f - a)) by (rewrite Egb, firstn_length, Lt; reflexivity).
      destruct (Nat.eqb_spec (length (got ++ b)) 12) as [L12|L12].
      + rewrite Egb. rewrite Rd in Al. assert ((a + 12 <=? length f)%nat = true) as Y by (apply Nat.leb_le; lia). rewrite Y in Al. exact Al.
      + assert ((a + 12 <=? length f)%nat = false) as Y by (apply Nat.leb_gt; lia). rewrite Y in Rd.
        destruct b as [|b0 b1] eqn:Eb0.
        * rewrite app_nil_r in *. rewrite Rd in Al. destruct got as [|g0 got].
          -- cbn [length] in *. assert ((a <? length f)%nat = false) as Y2 by (apply Nat.ltb_ge; lia). rewrite Y2 in Al. exact Al.
          -- cbn [length] in *. assert ((a <? length f)%nat = true) as Y2 by (apply Nat.ltb_lt; lia). rewrite Y2 in Al. exact Al.
        * exists did. unfold set_pos. rewrite Nat.eqb_refl, Ep. rewrite <- Eb0 in *. split; [rewrite app_length; unfold a; lia|]. split; [lia|].
          split; [right; assert (Lb : (1 <= length b)%nat) by (rewrite Eb0; cbn [length]; lia); rewrite app_length in *; lia|]. split; [|exact Al]. rewrite Lgb, Egb. fold a. fold tl.
          rewrite !firstn_all2 by (rewrite Lt; lia). reflexivity.
  Qed.
  Theorem taking_turns pos ps st : csteps f turns (pos, cstart ps) st ->
    forall j g, nth_error (snd st) j = Some g -> exists h p, nth_error ps j = Some (h, p) /\ on_track (fst st) (alone f p) g.
  Proof.
    intros H. assert (X : forall j g, nth_error (snd st) j = Some g -> exists r, nth_error (map (fun p => alone f (snd p)) ps) j = Some r /\ on_track (fst st) r g).
    { remember (pos, cstart ps) as st0 eqn:E0. induction H as [st|i st st1 st2 H IH T S].
      - subst st. cbn [snd fst]. intros j g Ej. unfold cstart in Ej. rewrite nth_error_map in Ej |- *.
        destruct (nth_error ps j) as [[h p]|]; [|discriminate]. cbn [option_map fst snd] in *. eexists. split; [reflexivity|].
        assert (g = MkGo h (Running p)) as -> by congruence. reflexivity.
      - destruct st1 as [pos1 gs1], st2 as [pos2 gs2]. cbn [fst snd] in *. eapply step_track; eauto. }
    intros j g Ej. destruct (X j g Ej) as (r & Er & Tr). rewrite nth_error_map in Er. destruct (nth_error ps j) as [[h p]|]; [|discriminate].
    cbn [option_map snd] in Er. exists h, p. split; [reflexivity|]. assert (r = alone f p) as -> by congruence. exact Tr.
  Qed.
End T.

(** * In each other's way *)
Lemma upd_nth {A} i (x : A) l y : nth_error l i = Some y -> nth_error (upd i x l) i = Some x.
Proof. intros E. rewrite nth_upd, Nat.eqb_refl, E. reflexivity. Qed.
Lemma lookup_in f did fl : dmd_lookup f did = Ok fl -> (N.to_nat did * 12 + 12 <= length f)%nat /\
  let b := firstn 12 (skipn (N.to_nat did * 12) f) in fl = MkFields (be32 (sub 0 4 b)) (be32 (sub 4 8 b)) (be32 (sub 8 12 b)).
Proof.
  unfold dmd_lookup, read_full, pread, zlen. assert ((Z.of_N did * 12 <? 0)%Z = false) as -> by lia. change (12 <=? 0)%Z with false. cbv iota.
  assert (Z.to_nat (Z.of_N did * 12) = (N.to_nat did * 12)%nat) as -> by lia.
  destruct (Z.leb_spec (Z.of_N did * 12 + 12) (Z.of_nat (length f))) as [L|L].
  - cbn [bind]. intros E. split; [lia|]. injection E as <-. reflexivity.
  - destruct (_ <? _)%Z; discriminate.
Qed.
(** Reading in one go. *)
Lemma read_whole {A} f i pos gs h (k : result fields -> prog A) did fl : nth_error gs i = Some (MkGo h (Reading [] k)) ->
  pos h = (N.to_nat did * 12)%nat -> dmd_lookup f did = Ok fl ->
  cstep f i (pos, gs) (set_pos pos h (pos h + 12), upd i (MkGo h (Running (k (Ok fl)))) gs).
Proof.
  intros E Ep L. destruct (lookup_in f did fl L) as [Ll ->].
  pose proof (step_read f i pos gs h [] k (firstn 12 (skipn (pos h) f)) E eq_refl) as S. cbn [app] in S.
  assert (Lb : length (firstn 12 (skipn (pos h) f)) = 12%nat) by (rewrite firstn_length, skipn_length; lia).
  rewrite Lb, Nat.eqb_refl in S. rewrite Ep in S |- *. exact S.
Qed.
(** Only [i] moves. *)
Definition only {A} (i : nat) : nat -> cstate A -> Prop := fun j _ => j = i.
Lemma csteps_trans {A} f (P : nat -> cstate A -> Prop) a b c : csteps f P a b -> csteps f P b c -> csteps f P a c.
Proof. intros H1 H2. induction H2 as [|i s t v H IH]; [exact H1|]. eapply csteps_step; [apply IH, H1|eassumption|eassumption]. Qed.
Lemma csteps_weak {A} f (P Q : nat -> cstate A -> Prop) a b : (forall i s, P i s -> Q i s) -> csteps f P a b -> csteps f Q a b.
Proof. intros X H. induction H; [apply csteps_refl|]. eapply csteps_step; eauto. Qed.
Lemma one_step {A} f (P : nat -> cstate A -> Prop) i a b : P i a -> cstep f i a b -> csteps f P a b.
Proof. intros H S. eapply csteps_step; [apply csteps_refl|exact H|exact S]. Qed.
Lemma upd_twice {A} i (x y : A) : forall l, upd i x (upd i y l) = upd i x l.
Proof. induction i as [|i IH]; intros [|z l]; cbn [upd]; try reflexivity. f_equal. apply IH. Qed.
Lemma upd_same {A} i (x : A) : forall l, nth_error l i = Some x -> upd i x l = l.
Proof. induction i as [|i IH]; intros [|z l] E; cbn [upd nth_error] in *; try discriminate; [congruence|]. f_equal. apply IH, E. Qed.
(** A read comes to an end, with one result or another. *)
Lemma reads_something {A} f i h (k : result fields -> prog A) n : forall got pos gs, nth_error gs i = Some (MkGo h (Reading got k)) -> (12 < length got + n)%nat ->
  exists pos' r, csteps f (only i) (pos, gs) (pos', upd i (MkGo h (Running (k r))) gs).
Proof.
  induction n as [|n IH]; intros got pos gs E L.
  - pose proof (step_read f i pos gs h got k _ E eq_refl) as S. replace (12 - length got)%nat with 0%nat in S by lia. cbn [firstn length] in S. rewrite app_nil_r in S.
    destruct (Nat.eqb_spec (length got) 12); eexists _, _; eapply one_step; try reflexivity; exact S.
  - set (b := firstn (12 - length got) (skipn (pos h) f)). pose proof (step_read f i pos gs h got k b E eq_refl) as S.
    destruct (length (got ++ b) =? 12)%nat; [eexists _, _; eapply one_step; [reflexivity|exact S]|]. destruct b as [|b0 b1] eqn:Eb; [eexists _, _; eapply one_step; [reflexivity|exact S]|].
    match type of S with cstep _ _ _ (?p, ?g) => destruct (IH (got ++ b0 :: b1) p g) as (pos' & r & Hs) end.
    { eapply upd_nth, E. } { rewrite app_length. cbn [length]. lia. }
    exists pos', r. eapply csteps_trans; [eapply one_step; [reflexivity|exact S]|]. rewrite upd_twice in Hs. exact Hs.
Qed.
Lemma one_lookup {A} f i h did (k : result fields -> prog A) pos gs : nth_error gs i = Some (MkGo h (Running (Look did k))) ->
  exists pos', csteps f (only i) (pos, gs) (pos', upd i (MkGo h (Running (k (dmd_lookup f did)))) gs).
Proof.
  intros E. pose proof (step_seek f i pos gs h did k E) as S1.
  match type of S1 with cstep _ _ _ (?p, ?g) => set (p1 := p) in *; set (g1 := g) in * end.
  assert (E1 : nth_error g1 i = Some (MkGo h (Reading [] k))) by (eapply upd_nth, E).
  assert (P1 : p1 h = (N.to_nat did * 12)%nat) by (unfold p1, set_pos; rewrite Nat.eqb_refl; reflexivity).
  assert (U : forall x, upd i x g1 = upd i x gs) by (intros x; unfold g1; apply upd_twice).
  pose proof (step_read f i p1 g1 h [] k _ E1 eq_refl) as S2. rewrite P1 in S2. cbn [app length Nat.sub] in S2. rewrite U in S2.
  destruct (Nat.le_gt_cases (N.to_nat did * 12 + 12) (length f)) as [L|L].
  - assert (exists fl, dmd_lookup f did = Ok fl) as [fl Ef].
    { unfold dmd_lookup, read_full, pread, zlen. assert ((Z.of_N did * 12 <? 0)%Z = false) as -> by lia. change (12 <=? 0)%Z with false. cbv iota.
      assert ((Z.of_N did * 12 + 12 <=? Z.of_nat (length f))%Z = true) as -> by lia. cbn [bind]. eauto. }
    rewrite Ef. eexists. eapply csteps_step; [eapply one_step; [reflexivity|exact S1]|reflexivity|]. rewrite <- U. eapply read_whole; eauto.
  - assert (Ed : dmd_lookup f did = Err (if (N.to_nat did * 12 <? length f)%nat then EOther else EOF)).
    { unfold dmd_lookup, read_full, pread, zlen. assert ((Z.of_N did * 12 <? 0)%Z = false) as -> by lia. change (12 <=? 0)%Z with false. cbv iota.
      assert ((Z.of_N did * 12 + 12 <=? Z.of_nat (length f))%Z = false) as -> by lia.
      destruct (Z.ltb_spec (Z.of_N did * 12) (Z.of_nat (length f))) as [M|M]; destruct (Nat.ltb_spec (N.to_nat did * 12) (length f)) as [M2|M2]; try (exfalso; lia); reflexivity. }
    rewrite Ed. assert (Lb : length (skipn (N.to_nat did * 12) f) = (length f - N.to_nat did * 12)%nat) by apply skipn_length.
    set (b := skipn (N.to_nat did * 12) f) in *. rewrite (firstn_all2 (n := 12) b) in S2 by lia.
    assert ((length b =? 12)%nat = false) as Y by (apply Nat.eqb_neq; lia). rewrite Y in S2. clear Y.
    destruct (Nat.ltb_spec (N.to_nat did * 12) (length f)) as [M|M].
    + destruct b as [|b0 b'] eqn:Eb; [cbn [length] in Lb; lia|]. rewrite <- Eb in *. clear Eb b0 b'.
      match type of S2 with cstep _ _ _ (?p, ?g) => set (p2 := p) in *; set (g2 := g) in * end.
      assert (E2 : nth_error g2 i = Some (MkGo h (Reading b k))) by (eapply upd_nth, E).
      assert (P2 : p2 h = length f) by (unfold p2, set_pos; rewrite Nat.eqb_refl; lia).
      pose proof (step_read f i p2 g2 h b k _ E2 eq_refl) as S3. rewrite P2, skipn_all, firstn_nil, app_nil_r in S3.
      assert ((length b =? 12)%nat = false) as Y by (apply Nat.eqb_neq; lia). rewrite Y in S3. clear Y.
      unfold g2 in S3 at 2. rewrite upd_twice in S3. destruct b as [|b0 b']; [cbn [length] in Lb; lia|].
      eexists. eapply csteps_step; [eapply csteps_step; [eapply one_step; [reflexivity|exact S1]|reflexivity|exact S2]|reflexivity|exact S3].
    + destruct b as [|b0 b']; [|cbn [length] in Lb; lia]. eexists. eapply csteps_step; [eapply one_step; [reflexivity|exact S1]|reflexivity|exact S2].
Qed.
(** Undisturbed, a goroutine finishes. *)
Lemma finishes_alone {A} f (p : prog A) : forall i pos gs h, nth_error gs i = Some (MkGo h (Running p)) ->
  exists pos', csteps f (only i) (pos, gs) (pos', upd i (MkGo h (Running (Finish (alone f p)))) gs).
Proof.
  induction p as [r|did k IH]; intros i pos gs h E; cbn [alone].
  - exists pos. rewrite upd_same by exact E. apply csteps_refl.
  - destruct (one_lookup f i h did k pos gs E) as (p1 & S1).
    destruct (IH (dmd_lookup f did) i p1 _ h (upd_nth i _ gs _ E)) as (p2 & S2). exists p2. rewrite upd_twice in S2.
    eapply csteps_trans; eauto.
Qed.
(** Two lookups: the first seeks, the second seeks, the first reads. *)
Lemma overtaken {A} f h d1 (k1 : result fields -> prog A) d2 k2 fl pos : dmd_lookup f d2 = Ok fl ->
  exists pos' r2, csteps f any (pos, cstart [(h, Look d1 k1); (h, Look d2 k2)])
    (pos', [MkGo h (Running (Finish (alone f (k1 (Ok fl))))); MkGo h (Running (Finish r2))]).
Proof.
  intros Ed. set (g0 := cstart _).
  assert (E1 : nth_error g0 0 = Some (MkGo h (Running (Look d1 k1)))) by reflexivity.
  pose proof (step_seek f 0 pos g0 h d1 k1 E1) as S1. unfold g0 in S1 at 2. cbn [cstart map upd fst snd] in S1.
  match type of S1 with cstep _ _ _ (?p, ?g) => set (p1 := p) in *; set (g1 := g) in * end.
  assert (E2 : nth_error g1 1 = Some (MkGo h (Running (Look d2 k2)))) by reflexivity.
  pose proof (step_seek f 1 p1 g1 h d2 k2 E2) as S2. unfold g1 in S2 at 2. cbn [upd] in S2.
  match type of S2 with cstep _ _ _ (?p, ?g) => set (p2 := p) in *; set (g2 := g) in * end.
  assert (E3 : nth_error g2 0 = Some (MkGo h (Reading [] k1))) by reflexivity.
  assert (P2 : p2 h = (N.to_nat d2 * 12)%nat) by (unfold p2, set_pos; rewrite Nat.eqb_refl; reflexivity).
  pose proof (read_whole f 0 p2 g2 h k1 d2 fl E3 P2 Ed) as S3. unfold g2 in S3 at 2. cbn [upd] in S3.
  match type of S3 with cstep _ _ _ (?p, ?g) => set (p3 := p) in *; set (g3 := g) in * end.
  destruct (finishes_alone f (k1 (Ok fl)) 0 p3 g3 h eq_refl) as (p4 & S4). unfold g3 in S4 at 2. cbn [upd] in S4.
  match type of S4 with csteps _ _ _ (?p, ?g) => set (g4 := g) in * end.
  destruct (reads_something f 1 h k2 13 [] p4 g4 eq_refl) as (p5 & r & S5); [cbn [length]; lia|]. unfold g4 in S5 at 2. cbn [upd] in S5.
  match type of S5 with csteps _ _ _ (?p, ?g) => set (g5 := g) in * end.
  destruct (finishes_alone f (k2 r) 1 p5 g5 h eq_refl) as (p6 & S6). unfold g5 in S6 at 2. cbn [upd] in S6.
  exists p6, (alone f (k2 r)).
  assert (W : forall i (a b : cstate A), csteps f (only i) a b -> csteps f any a b) by (intros i a b; apply csteps_weak; intros; exact I).
  eapply csteps_trans; [|eapply W, S6]. eapply csteps_trans; [|eapply W, S5]. eapply csteps_trans; [|eapply W, S4].
  eapply csteps_step; [eapply csteps_step; [eapply one_step; [exact I|exact S1]|exact I|exact S2]|exact I|exact S3].
Qed.

(** Get, overtaken. *)
Section Q.
  Variables (grow : nat -> nat) (ix : index) (n : nat) (content : nat -> nat -> list N) (place : N -> bytes * N * N).
  Hypothesis I : index_ok ix n content place.
  Lemma get_prog_head blot d l fuel : at_blot n content blot = d :: l -> (length (d :: l) < fuel)%nat ->
    exists k, get_prog grow ix fuel blot None = Look d k /\
    (forall d' fl, dmd_lookup (ix_dmd ix) d' = Ok fl -> docid2doc ix d' = Ok (place d') ->
      exists ds, alone (ix_dmd ix) (k (Ok fl)) = Ok ds /\ docs_keys ds = place d' :: map place l).
  Proof.
    intros E L. destruct (nth_shard grow ix place n content I (shard_of n blot) (shard_lt grow ix place n content I blot)) as [si Es].
    unfold get_prog, get_address. rewrite (u32_n grow ix place n content I). pose proof (io_pos _ _ _ _ I) as Pn.
    destruct (N.eqb_spec (N.of_nat n) 0) as [Z|_]; [lia|]. fold (shard_of n blot). rewrite Es.
    destruct (io_reads _ _ _ _ I _ _ Es (slot_of n blot) (slot_lt grow n blot)) as [R _].
    change (content (shard_of n blot) (slot_of n blot)) with (at_blot n content blot) in R. rewrite E in R. destruct R as (ps & Ep & R).
    destruct fuel as [|fuel]; [cbn [length] in L; lia|]. cbn [is_nil negb get_prog_loop andb].
    change (rs_posts (read_state_for si (N.to_nat (u16 (blot / N.of_nat n))))) with (new_posts (nth (slot_of n blot) (si_heads si) (-1)%Z)).
    rewrite Ep. eexists. split; [reflexivity|]. intros d' fl El Ed. cbn beta. unfold docid2doc in Ed. rewrite El in Ed. cbn [bind] in Ed |- *.
    destruct (fn_abs (ix_fnames ix) (f_fid fl)) as [path| | |]; try discriminate. cbn [bind] in Ed |- *.
    destruct (put_doc_free grow None path (f_start fl) (f_end fl) Logic.I) as (ds1 & E1 & W1 & L1 & _). rewrite E1. cbn [bind].
    rewrite get_prog_loop_alone. destruct (get_loop_free grow ix place (si_file si) l fuel ps ds1 R) as (ds & Eg & _ & Lg); auto; [|cbn [length] in L; lia|].
    { intros x Hx. eapply (io_place _ _ _ _ I); [apply (shard_lt grow ix place n content I blot)|apply (slot_lt grow n blot)|].
      change (In x (at_blot n content blot)). rewrite E. right. exact Hx. }
    exists ds. split; [exact Eg|]. unfold docs_keys. rewrite Lg, L1. cbn [docs_list app map]. assert (place d' = (path, f_start fl, f_end fl)) as -> by congruence.
    unfold doc_key at 1. cbn [d_path d_start d_end]. f_equal. rewrite map_map. apply map_ext. intros x. unfold key_doc, doc_key. cbn [d_path d_start d_end].
    destruct (place x) as [[? ?] ?]. reflexivity.
  Qed.
  Theorem get_overtaken b1 d1 l1 b2 d2 l2 fuel h pos : at_blot n content b1 = d1 :: l1 -> at_blot n content b2 = d2 :: l2 ->
    (length (d1 :: l1) < fuel)%nat -> (length (d2 :: l2) < fuel)%nat ->
    exists pos' ds1 r2, csteps (ix_dmd ix) any (pos, cstart [(h, get_prog grow ix fuel b1 None); (h, get_prog grow ix fuel b2 None)])
      (pos', [MkGo h (Running (Finish (Ok ds1))); MkGo h (Running (Finish r2))]) /\
      docs_keys ds1 = place d2 :: map place l1.
  Proof.
    intros E1 E2 L1 L2. destruct (get_prog_head b1 d1 l1 fuel E1 L1) as (k1 & -> & X1). destruct (get_prog_head b2 d2 l2 fuel E2 L2) as (k2 & -> & _).
    assert (Ed : docid2doc ix d2 = Ok (place d2)).
    { eapply (io_place _ _ _ _ I); [apply (shard_lt grow ix place n content I b2)|apply (slot_lt grow n b2)|]. change (In d2 (at_blot n content b2)). rewrite E2. left. reflexivity. }
    assert (exists fl, dmd_lookup (ix_dmd ix) d2 = Ok fl) as [fl El] by (unfold docid2doc in Ed; destruct (dmd_lookup (ix_dmd ix) d2); try discriminate; eauto).
    destruct (X1 d2 fl El Ed) as (ds1 & Ea & Ek). destruct (overtaken (ix_dmd ix) h d1 k1 d2 k2 fl pos El) as (pos' & r2 & S).
    exists pos', ds1, r2. rewrite <- Ea. split; [exact S|exact Ek].
  Qed.
End Q.

(** * Runs that take turns *)
Lemma step_handles {A} f i (st st' : cstate A) : cstep f i st st' -> map g_h (snd st') = map g_h (snd st).
Proof.
  assert (U : forall j g gs (g0 : goroutine A), nth_error gs j = Some g0 -> g_h g = g_h g0 -> map g_h (upd j g gs) = map g_h gs).
  { induction j as [|j IH]; intros g [|y gs] g0 E Eh; cbn [nth_error upd map] in *; try discriminate; [congruence|]. f_equal. eapply IH; eauto. }
  intros S. destruct S; cbn [snd]; eapply U; eauto.
Qed.
Lemma steps_handles {A} f P (st st' : cstate A) : csteps f P st st' -> map g_h (snd st') = map g_h (snd st).
Proof. intros H. induction H as [|i s t v H IH _ S]; [reflexivity|]. rewrite (step_handles _ _ _ _ S). exact IH. Qed.
Theorem own_files_turns {A} f (ps : list (nat * prog A)) pos st : own_files ps -> csteps f any (pos, cstart ps) st -> csteps f turns (pos, cstart ps) st.
Proof.
  intros O H. remember (pos, cstart ps) as st0 eqn:E0. induction H as [st|i st st1 st2 H IH _ S]; [apply csteps_refl|].
  eapply csteps_step; [apply IH, E0| |exact S]. intros j gi gj Ei Ej Ne Eh. exfalso. pose proof (steps_handles _ _ _ _ H) as Hh. subst st. cbn [snd] in Hh.
  assert (X : forall l g, nth_error (snd st1) l = Some g -> exists p, nth_error ps l = Some p /\ fst p = g_h g).
  { intros l g El. apply (map_nth_error g_h) in El. rewrite Hh in El. unfold cstart in El. rewrite map_map in El. cbn [g_h] in El.
    rewrite nth_error_map in El. destruct (nth_error ps l) as [p|]; [|discriminate]. cbn [option_map] in El. exists p. split; [reflexivity|congruence]. }
  destruct (X i gi Ei) as (p & Ep & Fp). destruct (X j gj Ej) as (q & Eq & Fq). apply Ne. apply (O j i q p Eq Ep). congruence.
Qed.
(** One after the other is a way of taking turns. *)
Lemma only_turns {A} f i (st st' : cstate A) : csteps f (only i) st st' ->
  (forall j g, nth_error (snd st) j = Some g -> j <> i -> reading g = false) ->
  csteps f turns st st' /\ forall j, j <> i -> nth_error (snd st') j = nth_error (snd st) j.
Proof.
  intros H X. induction H as [st|i0 st st1 st2 H IH Hi S]; [split; [apply csteps_refl|reflexivity]|].
  destruct (IH X) as [T E]. unfold only in Hi. subst i0. split.
  - eapply csteps_step; [exact T| |exact S]. intros j gi gj _ Ej Ne _. rewrite E in Ej by exact Ne. eauto.
  - intros j Ne. rewrite <- E by exact Ne. destruct S; cbn [snd]; rewrite nth_upd; destruct (Nat.eqb_spec i j); congruence.
Qed.
Lemma all_finish {A} f (ps : list (nat * prog A)) : forall done pos,
  exists pos', csteps f turns (pos, map (fun p => MkGo (fst p) (Running (Finish (alone f (snd p))))) done ++ cstart ps)
    (pos', map (fun p => MkGo (fst p) (Running (Finish (alone f (snd p))))) (done ++ ps)).
Proof.
  induction ps as [|[h p] ps IH]; intros done pos; cbn [cstart map fst snd].
  - exists pos. rewrite !app_nil_r. apply csteps_refl.
  - set (d := map _ done). fold (cstart ps).
    assert (E : nth_error (d ++ MkGo h (Running p) :: cstart ps) (length d) = Some (MkGo h (Running p))) by (rewrite nth_error_app2, Nat.sub_diag by lia; reflexivity).
    destruct (finishes_alone f p (length d) pos _ h E) as (p1 & S1).
    destruct (only_turns f (length d) _ _ S1) as [T1 _].
    { cbn [snd]. intros j g Ej Ne. apply nth_error_In in Ej. apply in_app_or in Ej. destruct Ej as [Ej|[<-|Ej]]; [|reflexivity|].
      - unfold d in Ej. apply in_map_iff in Ej. destruct Ej as (q & <- & _). reflexivity.
      - unfold cstart in Ej. apply in_map_iff in Ej. destruct Ej as (q & <- & _). reflexivity. }
    assert (U : forall x : goroutine A, upd (length d) x (d ++ MkGo h (Running p) :: cstart ps) = d ++ x :: cstart ps).
    { clear. intros x. induction d as [|y d IHd]; cbn [length app upd]; [reflexivity|]. f_equal. exact IHd. }
    rewrite U in T1. destruct (IH (done ++ [(h, p)]) p1) as (p2 & S2). exists p2. eapply csteps_trans; [exact T1|].
    rewrite map_app in S2. cbn [map fst snd] in S2. rewrite <- !app_assoc in S2. cbn [app] in S2. exact S2.
Qed.
