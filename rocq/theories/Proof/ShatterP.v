(** What one worker makes of one document. *)
From Verif Require Import Model.Base Model.Utf8 Model.Token Model.Blotter Model.Post Model.Address Model.Shatter.
From Verif Require Import Spec.Text Spec.Fingerprint Proof.Tactics Proof.Utf8P Proof.TokenP Proof.BlotterP.
Local Open Scope N_scope.

(** The posts for document [did] with blots [blots], shard by shard. *)
Definition batches (n : nat) (did : N) (blots : list N) : list (list N) :=
  map (fun s => map (post_make did) (shard_part (N.of_nat n) (N.of_nat s) blots)) (seq 0 n).

Lemma batches_length n did bs : length (batches n did bs) = n.
Proof. unfold batches. rewrite map_length, seq_length. reflexivity. Qed.
Lemma seq_nth_error n i a : (i < n)%nat -> nth_error (seq a n) i = Some (a + i)%nat.
Proof.
  revert i a; induction n as [|n IH]; intros i a H; [lia|]. destruct i as [|i]; cbn [seq nth_error].
  - f_equal. lia.
  - rewrite IH by lia. f_equal. lia.
Qed.
Lemma batches_nth n did bs s : (s < n)%nat ->
  nth_error (batches n did bs) s = Some (map (post_make did) (shard_part (N.of_nat n) (N.of_nat s) bs)).
Proof.
  intros H. unfold batches. rewrite nth_error_map, seq_nth_error by exact H. reflexivity.
Qed.
Lemma batches_nil n did : batches n did [] = repeat [] n.
Proof.
  apply nth_error_ext'. intros i. destruct (Nat.lt_ge_cases i n) as [H|H].
  - rewrite batches_nth by exact H. symmetry.
    destruct (nth_error (repeat [] n) i) eqn:E.
    + apply nth_error_In, repeat_spec in E. subst. reflexivity.
    + apply nth_error_None in E. rewrite repeat_length in E. lia.
  - transitivity (@None (list N)); [|symmetry]; apply nth_error_None;
      rewrite ?batches_length, ?repeat_length; lia.
Qed.
Lemma shard_part_snoc n s bs b : shard_part n s (bs ++ [b]) =
  shard_part n s bs ++ (if b mod n =? s then [b / n] else []).
Proof.
  unfold shard_part. rewrite filter_app, map_app. f_equal. cbn [filter]. destruct (_ =? _); reflexivity.
Qed.
Lemma batches_snoc n did bs b : (0 < n)%nat -> N.of_nat n < 4294967296 ->
  shatter_blot_d (batches n did bs) did b = Ok (batches n did (bs ++ [b])).
Proof.
  intros Hn Hb. unfold shatter_blot_d, shatter_blot, nlen. rewrite batches_length.
  replace (u32 (N.of_nat n)) with (N.of_nat n) by (unfold u32; symmetry; apply N.mod_small; exact Hb).
  destruct (N.eqb_spec (N.of_nat n) 0); [lia|]. cbn [bind].
  assert (Hs : (N.to_nat (b mod N.of_nat n) < n)%nat).
  { pose proof (N.mod_lt b (N.of_nat n) ltac:(lia)). lia. }
  rewrite batches_nth by exact Hs. f_equal. apply nth_error_ext'. intros i.
  rewrite nth_error_upd. destruct (Nat.lt_ge_cases i n) as [H|H].
  - rewrite !batches_nth by exact H. rewrite shard_part_snoc.
    destruct (Nat.eqb_spec (N.to_nat (b mod N.of_nat n)) i) as [E|E].
    + subst i. rewrite N2Nat.id, N.eqb_refl, map_app. reflexivity.
    + destruct (N.eqb_spec (b mod N.of_nat n) (N.of_nat i)) as [E'|E'].
      * exfalso. apply E. rewrite E'. apply Nat2N.id.
      * rewrite app_nil_r. reflexivity.
  - destruct (Nat.eqb_spec (N.to_nat (b mod N.of_nat n)) i); [lia|].
    transitivity (@None (list N)); [|symmetry]; apply nth_error_None; rewrite batches_length; lia.
Qed.

Lemma firstn_app_le {A} i (a b : list A) : (i <= length a)%nat -> firstn i (a ++ b) = firstn i a.
Proof. intros H. rewrite firstn_app. replace (i - length a)%nat with O by lia. cbn [firstn]. apply app_nil_r. Qed.
Lemma spec_blots_snoc H k m ws w : spec_blots H k m (ws ++ [w]) =
  spec_blots H k m ws ++ (if (k * m <=? length ws)%nat then [blot_of H k m (ws ++ [w])] else []).
Proof.
  unfold spec_blots. rewrite app_length. cbn [length].
  destruct (Nat.leb_spec (k * m) (length ws)).
  - replace (length ws + 1 - k * m)%nat with (S (length ws - k * m)) by lia.
    rewrite seq_S, map_app. cbn [map]. f_equal.
    + apply map_ext_in. intros i Hi. apply in_seq in Hi. rewrite firstn_app_le by lia. reflexivity.
    + replace (k * m + (length ws - k * m))%nat with (length ws) by lia.
      replace (firstn (S (length ws)) (ws ++ [w])) with (ws ++ [w]); [reflexivity|].
      symmetry. apply firstn_all2. rewrite app_length. cbn [length]. lia.
  - replace (length ws + 1 - k * m)%nat with O by lia. replace (length ws - k * m)%nat with O by lia. reflexivity.
Qed.

(** The blot made at the word after [ws] in the document, when [ws] is long enough, does not
    depend on what the blotter hashed before the document. *)
Lemma blot_in_doc H k m hist ws w : (0 < k)%nat -> (0 < m)%nat -> (k * m <= length ws)%nat ->
  blot_of H k m (hist ++ ws ++ [w]) = blot_of H k m (ws ++ [w]).
Proof.
  intros Hk Hm L. pose proof (blot_of_suffix H k m hist [] (ws ++ [w])) as S. cbn [app] in S. apply S.
  rewrite app_length. cbn [length]. nia.
Qed.

Section Sh.
  Variable u : unicode.

  Lemma shatter_loop_spec k m n did : (0 < k)%nat -> (0 < m)%nat -> (0 < n)%nat -> N.of_nat n < 4294967296 ->
    forall toks hist ws bl, blotter_inv u k m (hist ++ ws) bl ->
    exists bl',
      shatter_loop u (Z.of_nat (k * m)) did toks (Z.of_nat (length ws)) bl (batches n did (spec_blots (word_hash u) k m ws)) =
        Ok (bl', batches n did (spec_blots (word_hash u) k m (ws ++ map t_lit (filter is_word toks)))) /\
      blotter_inv u k m (hist ++ ws ++ map t_lit (filter is_word toks)) bl'.
  Proof.
    intros Hk Hm Hn Hb. induction toks as [|t toks IH]; intros hist ws bl I; cbn [shatter_loop filter map].
    - exists bl. rewrite !app_nil_r. auto.
    - assert (W : is_word t = match t_tag t with Word => true | Other => false end) by reflexivity.
      rewrite W. destruct (t_tag t).
      + destruct (blotter_step u k m _ _ (t_lit t) I) as (b1 & E & I1). rewrite E. cbn [bind map].
        rewrite <- app_assoc in I1.
        specialize (IH hist (ws ++ [t_lit t]) b1 I1). rewrite app_length in IH. cbn [length] in IH.
        rewrite <- !app_assoc in IH. cbn [app] in IH.
        replace (Z.of_nat (length ws) + 1)%Z with (Z.of_nat (length ws + 1)) by lia.
        rewrite spec_blots_snoc in IH.
        destruct (Z.ltb_spec (Z.of_nat (k * m)) (Z.of_nat (length ws + 1))) as [C|C].
        * destruct (Nat.leb_spec (k * m) (length ws)); [|lia].
          rewrite <- app_assoc, blot_in_doc, batches_snoc by assumption. cbn [bind]. exact IH.
        * destruct (Nat.leb_spec (k * m) (length ws)); [lia|]. rewrite app_nil_r in IH. exact IH.
      + exact (IH hist ws bl I).
  Qed.

  Lemma doc_words_tok d offset ws : doc_words (word_char u) d ws ->
    map t_lit (filter is_word (tokenize u d offset)) = ws.
  Proof.
    intros [(rs & T & ->)|(NT & ->)].
    - apply tokenize_words, T.
    - rewrite tokenize_invalid; [reflexivity|]. exact NT.
  Qed.
  Lemma doc_words_total d : exists ws, doc_words (word_char u) d ws.
  Proof.
    destruct (utf8_valid d) eqn:E.
    - apply utf8_valid_spec in E. destruct E as [rs T]. exists (words (word_char u) (removelast rs)). left. eauto.
    - exists []. right. split; [|reflexivity]. intros rs T.
      assert (utf8_valid d = true) by (apply utf8_valid_spec; eauto). congruence.
  Qed.
  Lemma doc_words_fun d w1 w2 : doc_words (word_char u) d w1 -> doc_words (word_char u) d w2 -> w1 = w2.
  Proof. intros A B. rewrite <- (doc_words_tok d 0 _ A), <- (doc_words_tok d 0 _ B). reflexivity. Qed.

  Theorem shatter_do_spec k m n did offset msg ws hist bl :
    (0 < k)%nat -> (0 < m)%nat -> (0 < n)%nat -> N.of_nat n < 4294967296 ->
    blotter_inv u k m hist bl -> doc_words (word_char u) msg ws ->
    exists bl', shatter_do u n (Z.of_nat (k * m)) bl did offset msg =
                  Ok (bl', batches n did (spec_blots (word_hash u) k m ws)) /\
                blotter_inv u k m (hist ++ ws) bl'.
  Proof.
    intros Hk Hm Hn Hb I D. unfold shatter_do.
    assert (I' : blotter_inv u k m (hist ++ []) bl) by (rewrite app_nil_r; exact I).
    destruct (shatter_loop_spec k m n did Hk Hm Hn Hb (tokenize u msg offset) hist [] bl I') as (bl' & E & I2).
    cbn [length app] in E, I2. rewrite (doc_words_tok _ offset _ D) in E, I2.
    assert (S0 : spec_blots (word_hash u) k m [] = []) by reflexivity.
    rewrite S0, batches_nil in E. exists bl'. auto.
  Qed.

  (** A worker's whole life: the documents it happens to get, one after another. *)
  Fixpoint worker_run (n : nat) (seqlen : Z) (bl : blotter) (jobs : list (N * N * bytes))
      : result (blotter * list (list (list N))) :=
    match jobs with
    | [] => Ok (bl, [])
    | (did, offset, msg) :: r =>
        do! (bl, b) <- shatter_do u n seqlen bl did offset msg;
        do! (bl, bs) <- worker_run n seqlen bl r;
        Ok (bl, b :: bs)
    end.
  Lemma worker_run_inv k m n : (0 < k)%nat -> (0 < m)%nat -> (0 < n)%nat -> N.of_nat n < 4294967296 ->
    forall jobs hist bl, blotter_inv u k m hist bl ->
    exists bl' bs hist', worker_run n (Z.of_nat (k * m)) bl jobs = Ok (bl', bs) /\ blotter_inv u k m hist' bl' /\
      length bs = length jobs /\
      forall i did offset msg ws, nth_error jobs i = Some (did, offset, msg) -> doc_words (word_char u) msg ws ->
        nth_error bs i = Some (batches n did (spec_blots (word_hash u) k m ws)).
  Proof.
    intros Hk Hm Hn Hb. induction jobs as [|[[did offset] msg] jobs IH]; intros hist bl I; cbn [worker_run].
    - exists bl, [], hist. split; [reflexivity|]. split; [exact I|]. split; [reflexivity|].
      intros i ? ? ? ? E. destruct i; discriminate.
    - destruct (doc_words_total msg) as [ws D].
      destruct (shatter_do_spec k m n did offset msg ws hist bl Hk Hm Hn Hb I D) as (b1 & E & I1).
      rewrite E. cbn [bind]. destruct (IH _ _ I1) as (b2 & bs & h2 & E2 & I2 & L2 & S2). rewrite E2. cbn [bind].
      exists b2, (batches n did (spec_blots (word_hash u) k m ws) :: bs), h2.
      split; [reflexivity|]. split; [exact I2|]. split; [cbn [length]; lia|].
      intros [|i] did' offset' msg' ws' En D'; cbn [nth_error] in *.
      + inv En. rewrite (doc_words_fun _ _ _ D D'). reflexivity.
      + eauto.
  Qed.
End Sh.

