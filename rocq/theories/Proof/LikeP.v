(** The like command. *)
From Verif Require Import Model.Base Model.Utf8 Model.Token Model.Blotter Model.Shatter Model.Config Model.Conc Model.Index Model.Query Model.Session Model.Cmd.
From Verif Require Import Spec.Text Spec.Fingerprint Spec.Configs Spec.Querying Spec.History Spec.Reading Spec.Paths Spec.Stretch.
From Verif Require Import Proof.Tactics Proof.Utf8P Proof.TokenP Proof.BlotterP Proof.ShatterP Proof.IndexP Proof.IndexP2 Proof.FindP Proof.BlotsP Proof.QueryP Proof.SessionP Proof.SessionP2 Proof.CmdP Proof.StretchP.
Local Open Scope N_scope.

(** What loading a document gives. *)
Lemma doc_load_spec fs path start end_ d : doc_load fs path start end_ = Ok d ->
  d_path d = path /\ d_start d = start /\
  exists content before after, fs path = Some content /\ content = before ++ d_dat d ++ after /\
    ((start = 0 /\ end_ = 0 /\ before = [] /\ after = []) \/
     (d_end d = end_ /\ (start <= end_ -> end_ < 2 ^ 32 -> d_dat d = [] \/ nlen before = start /\ nlen before + nlen (d_dat d) = end_))).
Proof.
  unfold doc_load. destruct (fs path) as [content|]; [|discriminate].
  destruct ((start =? 0) && (end_ =? 0)) eqn:E0.
  { apply andb_true_iff in E0. destruct E0 as [E1 E2]. apply N.eqb_eq in E1, E2. subst start end_.
    intros E. injection E as <-. cbn [d_path d_start d_dat d_end]. split; [reflexivity|]. split; [reflexivity|].
    exists content, [], []. rewrite app_nil_r. split; [reflexivity|]. split; [reflexivity|]. left. auto. }
  clear E0. unfold pread. destruct (Z.ltb_spec (Z.of_N start) 0) as [|_]; [lia|].
  destruct (Z.leb_spec (Z.of_N (sub32 end_ start)) 0) as [Sz|Sz].
  - intros E. injection E as <-. cbn [d_path d_start d_dat d_end]. split; [reflexivity|]. split; [reflexivity|].
    exists content, content, []. cbn [app]. rewrite app_nil_r. split; [reflexivity|]. split; [reflexivity|]. right. split; [reflexivity|]. auto.
  - destruct (Z.leb_spec (Z.of_N start + Z.of_N (sub32 end_ start)) (zlen content)) as [Lf|Lf]; [|discriminate].
    intros E. injection E as <-. cbn [d_path d_start d_dat d_end]. split; [reflexivity|]. split; [reflexivity|].
    exists content, (firstn (Z.to_nat (Z.of_N start)) content), (skipn (Z.to_nat (Z.of_N (sub32 end_ start))) (skipn (Z.to_nat (Z.of_N start)) content)).
    rewrite !firstn_skipn. split; [reflexivity|]. split; [reflexivity|]. right. split; [reflexivity|]. intros Hle Hb. right.
    assert (Es : sub32 end_ start = end_ - start).
    { unfold sub32, u32. change (2 ^ 32) with 4294967296 in Hb. clear -Hb Hle.
      replace (end_ + 4294967296 - start) with (end_ - start + 1 * 4294967296) by lia. rewrite N.mod_add by lia. apply N.mod_small. lia. }
    rewrite Es in *. unfold zlen in Lf. unfold nlen. rewrite !firstn_length, skipn_length. lia.
Qed.

Section L.
  Context (u : unicode) (c : config) (k m n : nat).
  Hypothesis C : cfg_ok c k m n.
  Hypothesis Hn : N.of_nat n < 65536.
  Notation H := (word_hash u).
  Notation wc := (word_char u).
  Notation space := (N.of_nat n * 65536).

  (** The text of the SeqLen+1 words from word number [j] on. *)
  Notation window := (stretch (k * m)).

  Lemma spec_blots_nth ws j b : nth_error (spec_blots H k m ws) j = Some b <->
    (j + k * m < length ws)%nat /\ b = blot_of H k m (firstn (S (j + k * m)) ws).
  Proof.
    unfold spec_blots. split.
    - intros E. assert (L : (j < length ws - k * m)%nat).
      { assert (X : nth_error (map (fun i => blot_of H k m (firstn (S i) ws)) (seq (k * m) (length ws - k * m))) j <> None) by congruence.
        apply nth_error_Some in X. rewrite map_length, seq_length in X. exact X. }
      split; [lia|]. rewrite nth_error_map in E. 
      assert (Es : nth_error (seq (k * m) (length ws - k * m)) j = Some (k * m + j)%nat).
      { rewrite (nth_error_nth' _ 0%nat) by (rewrite seq_length; lia). rewrite seq_nth by lia. reflexivity. }
      rewrite Es in E. cbn [option_map] in E. injection E as <-. rewrite (Nat.add_comm j). reflexivity.
    - intros [L ->]. rewrite nth_error_map.
      assert (Es : nth_error (seq (k * m) (length ws - k * m)) j = Some (k * m + j)%nat).
      { rewrite (nth_error_nth' _ 0%nat) by (rewrite seq_length; lia). rewrite seq_nth by lia. reflexivity. }
      rewrite Es. cbn [option_map]. rewrite (Nat.add_comm j). reflexivity.
  Qed.

  Section Texts.
    Variables (dat : bytes) (ws : list bytes) (sp : list (nat * nat)) (toks : list token).
    Hypothesis W : doc_words wc dat ws.
    Hypothesis S : doc_spans wc dat sp.
    Hypothesis Ld : nlen dat < 2 ^ 32.
    Hypothesis Ht : forall j w s, nth_error ws j = Some w -> nth_error sp j = Some s -> nth_error toks j = Some (tok_of 0 (w, s)).

    Lemma len_sp : length sp = length ws.
    Proof. destruct (doc_toks u dat 0 ws sp W S) as [_ F2]. clear -F2. induction F2; cbn; congruence. Qed.
    Lemma window_at j : (j + k * m < length ws)%nat -> exists t, window dat sp j t /\
      (do! (beg, end_) <- tok_range c toks (Z.of_nat j); slice dat beg end_) = Ok t.
    Proof.
      intros L. destruct (nth_some ws j ltac:(lia)) as [w0 E0]. destruct (nth_some ws (j + k * m) L) as [w1 E1].
      pose proof len_sp as Ls. destruct (nth_some sp j ltac:(lia)) as [a Ea]. destruct (nth_some sp (j + k * m) ltac:(lia)) as [z Ez].
      exists (sub (fst a) (snd z) dat). split; [exists a, z; auto|].
      rewrite (tok_range_nat c k m n C Hn toks j _ _ (Ht _ _ _ E0 Ea) (Ht _ _ _ E1 Ez)). cbn [bind tok_of t_pos t_lit fst snd].
      destruct (doc_toks u dat 0 ws sp W S) as [_ F2]. destruct (Forall2_in_r _ _ _ _ _ F2 Ez) as (w1' & E1' & Fz).
      assert (w1' = w1) as -> by congruence. rewrite (end_pos n Hn 0 w1 z Fz).
      pose proof (doc_spans_mono u dat sp j (j + k * m) a z S ltac:(lia) Ea Ez) as Mo.
      destruct (Forall2_in_r _ _ _ _ _ (doc_span_words u dat ws sp W S) Ez) as (_ & _ & _ & Bz).
      change (2 ^ 32) with 4294967296 in Ld. unfold nlen in Ld. unfold u32. rewrite !N.add_0_l.
      rewrite (N.mod_small (N.of_nat (fst a))) by lia. rewrite (N.mod_small (N.of_nat (snd z))) by lia.
      unfold slice, nlen. destruct (N.leb_spec (N.of_nat (fst a)) (N.of_nat (snd z))); [|lia].
      destruct (N.leb_spec (N.of_nat (snd z)) (N.of_nat (length dat))); [|lia]. cbn [andb]. rewrite !Nat2N.id. reflexivity.
    Qed.

    Lemma like_texts_spec : forall blots i bm, (blots = [] \/ i + length blots + k * m <= length ws)%nat ->
      exists bm', like_texts c dat toks (Z.of_nat i) blots bm = Ok bm' /\ forall q,
        ((forall j b, nth_error blots j = Some b -> b mod space <> q) /\ tget q bm' = tget q bm) \/
        (exists j b t, nth_error blots j = Some b /\ b mod space = q /\
           (forall j' b', (j < j')%nat -> nth_error blots j' = Some b' -> b' mod space <> q) /\
           window dat sp (i + j) t /\ tget q bm' = Some t).
    Proof.
      induction blots as [|b r IH]; intros i bm L.
      - exists bm. split; [reflexivity|]. intros q. left. split; [|reflexivity]. intros [|j] ? E; discriminate.
      - destruct L as [L|L]; [discriminate|]. cbn [length] in L.
        destruct (window_at i ltac:(lia)) as (t & Wt & Er). cbn [like_texts].
        destruct (tok_range c toks (Z.of_nat i)) as [[beg end_]|e| |] eqn:E1; try discriminate. cbn [bind] in Er |- *.
        rewrite (space_pos c k m n C Hn), Er. cbn [bind]. rewrite (CmdP.space c k m n C Hn).
        replace (Z.of_nat i + 1)%Z with (Z.of_nat (Datatypes.S i)) by lia.
        destruct (IH (Datatypes.S i) (tset (b mod space) t bm)) as (bm' & E & V).
        { destruct r; [left; reflexivity|right; lia]. }
        exists bm'. split; [exact E|]. intros q. destruct (V q) as [[No Eq]|(j & b' & t' & En & Eb & La & Wt' & Eq)].
        + rewrite Eq, tget_tset. destruct (N.eqb_spec (b mod space) q) as [Eb|Nb].
          * right. exists 0%nat, b, t. split; [reflexivity|]. split; [exact Eb|]. split.
            -- intros [|j'] b' Lj En; [lia|]. cbn [nth_error] in En. eauto.
            -- rewrite Nat.add_0_r. auto.
          * left. split; [|reflexivity]. intros [|j] b' En; cbn [nth_error] in En; [injection En as <-; exact Nb|eauto].
        + right. exists (Datatypes.S j), b', t'. split; [exact En|]. split; [exact Eb|]. split.
          * intros [|j'] b2 Lj En2; [lia|]. cbn [nth_error] in En2. apply (La j' b2); [lia|exact En2].
          * replace (i + Datatypes.S j)%nat with (Datatypes.S i + j)%nat by lia. auto.
    Qed.
  End Texts.

  (** The texts like looks for: for each blot the last stretch with it. *)
  Theorem like_map fname dat ws sp : doc_words wc dat ws -> doc_spans wc dat sp -> nlen dat < 2 ^ 32 ->
    exists bm, (forall fs grow ix fuel, ix_cfg ix = c ->
        like_file u fs grow ix fuel fname dat = like_loop u fs grow ix fuel bm (spec_blots H k m ws) []) /\
      forall q, ((forall i, ~ carries H k m n ws q i) /\ tget q bm = None) \/
        (exists i t, carries H k m n ws q (i + k * m) /\ (forall j, (i + k * m < j)%nat -> ~ carries H k m n ws q j) /\
           window dat sp i t /\ tget q bm = Some t).
  Proof.
    intros W S Ld. destruct (doc_toks u dat 0 ws sp W S) as [Et F2].
    assert (Ls : length ws = length sp) by (clear -F2; induction F2; cbn; congruence).
    destruct (like_texts_spec dat ws sp (words_first (tokenize u dat 0)) W S Ld) with (blots := spec_blots H k m ws) (i := 0%nat) (bm := @nil (N * bytes)) as (bm & E & V).
    - intros j w s Ew Es. unfold words_first. cbv zeta. rewrite Et.
      assert (Lc : length (combine ws sp) = length ws) by (rewrite combine_length; lia).
      rewrite nth_error_app1.
      + rewrite nth_error_map, (nth_combine _ _ _ _ _ Ew Es). reflexivity.
      + rewrite map_length, Lc. apply nth_error_Some. congruence.
    - destruct (Nat.le_gt_cases (length ws) (k * m)) as [G|G].
      + left. apply length_zero_iff_nil. unfold spec_blots. rewrite map_length, seq_length. lia.
      + right. unfold spec_blots. rewrite map_length, seq_length. lia.
    - exists bm. split.
      + intros fs grow ix fuel Ec. unfold like_file. rewrite Ec.
        rewrite (blot_doc_spec u c k m n [] (MkDoc fname 0 (u32 (nlen dat)) dat) ws C W). cbn [bind app].
        rewrite (idx_tokenize_ok u c k m n dat 0 C). cbn [bind]. change 0%Z with (Z.of_nat 0). rewrite E. reflexivity.
      + intros q. destruct (V q) as [[No Eq]|(j & b & t & En & Eb & La & Wt & Eq)].
        * left. split; [|exact Eq]. intros i [Li Ei].
          apply (No (i - k * m)%nat (blot_of H k m (firstn (Datatypes.S i) ws))); [|exact Ei].
          apply spec_blots_nth. replace (i - k * m + k * m)%nat with i by lia. split; [lia|reflexivity].
        * right. apply spec_blots_nth in En. destruct En as [Lj ->]. exists j, t. split; [split; [lia|exact Eb]|]. split; [|auto].
          intros i Li [Li' Ei]. apply (La (i - k * m)%nat (blot_of H k m (firstn (Datatypes.S i) ws))); [lia| |exact Ei].
          apply spec_blots_nth. replace (i - k * m + k * m)%nat with i by lia. split; [lia|reflexivity].
  Qed.

  (** The documents looked at and those found. *)
  Lemma same_key_spec a b : same_key a b = true <-> a = b.
  Proof.
    destruct a as [[p s] e], b as [[p' s'] e']. unfold same_key.
    rewrite !andb_true_iff, !N.eqb_eq, eq_bytes_spec. split; [intros [[-> ->] ->]; reflexivity|intros E; injection E as -> -> ->; auto].
  Qed.
  Lemma known_spec key found : existsb (same_key key) found = true <-> In key found.
  Proof.
    rewrite existsb_exists. split.
    - intros (x & I & E). apply same_key_spec in E. congruence.
    - intros I. exists key. split; [exact I|apply same_key_spec; reflexivity].
  Qed.

  Section Loop.
    Variables (fs : files) (grow : nat -> nat) (ix : index) (bm : tmap).
    Hypothesis Ec : ix_cfg ix = c.
    Definition good (key : bytes * N * N) : Prop := exists rm, load_find_blots u fs ix bm key = Ok rm /\ rm <> [].
    Lemma like_docs_ok keys : forall found found', like_docs u fs ix bm keys found = Ok found' ->
      (forall key, In key found' <-> In key found \/ (In key keys /\ good key)).
    Proof.
      induction keys as [|key keys IH]; intros found found' E kk; cbn [like_docs] in E.
      - injection E as <-. cbn. tauto.
      - destruct (existsb (same_key key) found) eqn:Ek.
        + apply known_spec in Ek. rewrite (IH _ _ E). cbn [In]. split; [tauto|]. intros [|[[->|] ?]]; tauto.
        + destruct (load_find_blots u fs ix bm key) as [rm|e| |] eqn:El; try discriminate. cbn [bind] in E.
          destruct rm as [|x rm].
          * rewrite (IH _ _ E). cbn [In]. split; [tauto|]. intros [|[[->|] (rm & A & B)]]; try tauto; [congruence|]. right. split; [assumption|exists rm; auto].
          * rewrite (IH _ _ E), in_app_iff. cbn [In]. assert (good key) by (exists (x :: rm); split; [exact El|discriminate]).
            split; [intros [[|[<-|[]]]|]; tauto|]. intros [|[[->|] ?]]; tauto.
    Qed.
    Lemma like_docs_succeeds keys : (forall key, In key keys -> exists rm, load_find_blots u fs ix bm key = Ok rm) ->
      forall found, exists found', like_docs u fs ix bm keys found = Ok found'.
    Proof.
      induction keys as [|key keys IH]; intros G found; [eexists; reflexivity|]. cbn [like_docs].
      assert (G' : forall kk, In kk keys -> exists rm, load_find_blots u fs ix bm kk = Ok rm) by (intros; apply G; right; assumption).
      destruct (existsb (same_key key) found); [auto|]. destruct (G key (or_introl eq_refl)) as [rm ->]. cbn [bind]. destruct rm; auto.
    Qed.
    (** The keys looked up for blot [b]. *)
    Definition looked_up (fuel : nat) (b : N) (key : bytes * N * N) : Prop :=
      exists ds, query_get grow ix fuel (b mod space) None = Ok ds /\ In key (docs_keys ds).
    Lemma like_loop_ok fuel blots : forall found found', like_loop u fs grow ix fuel bm blots found = Ok found' ->
      forall key, In key found' <-> In key found \/ ((exists b, In b blots /\ looked_up fuel b key) /\ good key).
    Proof.
      induction blots as [|b r IH]; intros found found' E key; cbn [like_loop] in E.
      - injection E as <-. cbn. split; [tauto|]. intros [|[(b & [] & _) _]]; assumption.
      - rewrite Ec, (space_pos c k m n C Hn), (CmdP.space c k m n C Hn) in E.
        destruct (query_get grow ix fuel (b mod space) None) as [ds|e| |] eqn:Eq; try discriminate. cbn [bind] in E.
        destruct (like_docs u fs ix bm (keys_of ds) found) as [f2|e| |] eqn:Ed; try discriminate. cbn [bind] in E.
        rewrite (IH _ _ E), (like_docs_ok _ _ _ Ed). 
        assert (Ek : docs_keys ds = keys_of ds) by (destruct ds as [[l back]|]; reflexivity). 
        split.
        + intros [[|[A B]]|[(b' & A & B) D]]; [tauto| |].
          * right. split; [|exact B]. exists b. split; [left; reflexivity|]. exists ds. split; [exact Eq|]. rewrite Ek. exact A.
          * right. split; [|exact D]. exists b'. split; [right; exact A|exact B].
        + intros [|[(b' & [<-|A] & B) D]]; [tauto| |].
          * destruct B as (ds' & Eq' & I). assert (ds' = ds) as -> by congruence. rewrite Ek in I. tauto.
          * right. split; [|exact D]. exists b'. auto.
    Qed.
    Lemma like_loop_succeeds fuel blots : (forall b, In b blots -> exists ds, query_get grow ix fuel (b mod space) None = Ok ds) ->
      (forall b key, In b blots -> looked_up fuel b key -> exists rm, load_find_blots u fs ix bm key = Ok rm) ->
      forall found, exists found', like_loop u fs grow ix fuel bm blots found = Ok found'.
    Proof.
      induction blots as [|b r IH]; intros Q G found; [eexists; reflexivity|]. cbn [like_loop].
      rewrite Ec, (space_pos c k m n C Hn), (CmdP.space c k m n C Hn). destruct (Q b (or_introl eq_refl)) as [ds Eq]. rewrite Eq. cbn [bind].
      destruct (like_docs_succeeds (keys_of ds)) with (found := found) as [f2 ->].
      { intros key I. apply (G b); [left; reflexivity|]. exists ds. split; [exact Eq|]. destruct ds as [[l back]|]; exact I. }
      cbn [bind]. apply IH; intros; [apply Q; right; assumption|]. eapply G; [right; eassumption|eassumption].
    Qed.
  End Loop.
End L.
