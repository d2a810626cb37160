From Verif Require Import Model.Base Model.Varint Model.Dmd Model.DmdFault Spec.Attempts
  Proof.Tactics Proof.VarintP Proof.DmdP.
Local Open Scope N_scope.

Lemma four_put v : four v = put_be32 v.
Proof. unfold four, put_be32, u8. rewrite !N.shiftr_div_pow2. reflexivity. Qed.

Lemma records_render ds : records ds = render_dmd ds.
Proof.
  unfold records, render_dmd. f_equal. apply map_ext. intros d. rewrite !four_put. reflexivity.
Qed.

Lemma records_cons d r : records (d :: r) = enc_fields d ++ records r.
Proof. rewrite !records_render. reflexivity. Qed.

Lemma records_app l1 l2 : records (l1 ++ l2) = records l1 ++ records l2.
Proof. rewrite !records_render. apply render_dmd_app. Qed.

Lemma records_length ds : length (records ds) = (12 * length ds)%nat.
Proof. rewrite records_render. apply render_dmd_length. Qed.

(** After how many bytes a call of flush stops. *)
Definition stopped (o : flush_outcome) (t : nat) : Prop :=
  match o with
  | FlushDone => False
  | FailOpen | FailSeek => t = 0%nat
  | FailWrite n k => t = (12 * n + Nat.min k 12)%nat
  end.

Lemma file_bytes_append file w : file_bytes (file_append file w) = file_bytes file ++ w.
Proof. destruct file; reflexivity. Qed.

Lemma nth_writes l : forall n w, nth_error (map enc_fields l) n = Some w ->
  forall k, concat (firstn n (map enc_fields l)) ++ firstn k w =
            firstn (12 * n + Nat.min k 12) (records l).
Proof.
  induction l as [|d r IH]; intros [|n] w H k; cbn [map nth_error] in H; try discriminate.
  - inversion H; subst w. cbn [firstn concat app].
    rewrite records_cons.
    rewrite firstn_app, enc_fields_length.
    replace (12 * 0 + Nat.min k 12 - 12)%nat with 0%nat by lia. cbn [firstn]. rewrite app_nil_r.
    replace (12 * 0 + Nat.min k 12)%nat with (Nat.min k 12) by lia.
    destruct (Nat.le_ge_cases k 12).
    + rewrite Nat.min_l by assumption. reflexivity.
    + rewrite Nat.min_r by assumption. rewrite !firstn_all2; try reflexivity; rewrite enc_fields_length; lia.
  - cbn [map firstn concat]. rewrite <- app_assoc, (IH n w H k).
    rewrite records_cons.
    rewrite firstn_app, enc_fields_length, (firstn_all2 (enc_fields d)) by (rewrite enc_fields_length; lia).
    f_equal. f_equal. lia.
Qed.

(** Either nothing goes wrong or the adder stays and some bytes of its records are written. *)
Lemma flush_o_cases a file o :
  flush_o a file o = (adder_flush a file, true) \/
  exists file' t, flush_o a file o = ((a, file'), false) /\ stopped o t /\
    file_bytes file' = file_bytes file ++ firstn t (records (a_buf a)).
Proof.
  destruct o as [| | |n k]; cbn [flush_o].
  - left. reflexivity.
  - right. exists file, 0%nat. cbn [stopped firstn]. rewrite app_nil_r. auto.
  - right. exists (file_append file []), 0%nat. cbn [stopped firstn].
    rewrite file_bytes_append. auto.
  - destruct (nth_error (flush_writes a) n) as [w|] eqn:E; [|left; reflexivity].
    right. eexists _, _. split; [reflexivity|]. split; [reflexivity|].
    rewrite file_bytes_append. f_equal. apply nth_writes. exact E.
Qed.

Definition content (bs : list batch) : bytes := concat (map batch_bytes bs).

(** [pre]: the records in the file when the session starts, [all]: those accepted since,
    the dummy record included. *)
Definition fault_inv (old : bytes) (pre : N) (os0 os : list flush_outcome) (all : list fields) (st : adder * option bytes) : Prop :=
  exists bs tries,
    all = concat (map fst bs) ++ a_buf (fst st) /\
    file_bytes (snd st) = old ++ content bs ++ leftovers (a_buf (fst st)) tries /\
    a_flushed (fst st) = pre + nlen (concat (map fst bs)) /\
    (exists used, os0 = used ++ os) /\
    Forall (fun t => exists o, In o os0 /\ stopped o t) (concat (map snd bs) ++ tries) /\
    a_rate (fst st) <> 0 /\
    (tries = [] \/ u32 (nlen (a_buf (fst st))) = a_rate (fst st)).

Lemma content_app l1 l2 : content (l1 ++ l2) = content l1 ++ content l2.
Proof. unfold content. rewrite map_app, concat_app. reflexivity. Qed.

Lemma leftovers_app ds t1 t2 : leftovers ds (t1 ++ t2) = leftovers ds t1 ++ leftovers ds t2.
Proof. unfold leftovers. rewrite map_app, concat_app. reflexivity. Qed.

Lemma next_outcome_cases os : let '(o, r) := next_outcome os in
  (os = o :: r) \/ (os = [] /\ o = FlushDone /\ r = []).
Proof. destruct os; cbn; auto. Qed.

Lemma flush_o_inv old pre os0 os all a file :
  pre + nlen all < 4294967296 ->
  fault_inv old pre os0 os all (a, file) ->
  u32 (nlen (a_buf a)) = a_rate a ->
  let '(o, os') := next_outcome os in
  let '(st', ok) := flush_o a file o in
  fault_inv old pre os0 os' all st' /\ (ok = true -> a_buf (fst st') = []).
Proof.
  intros Hlen (bs & tries & Hall & Hf & Hfl & (used & Hos) & Ht & Hz & Hr) Hrate. cbn [fst snd] in *.
  pose proof (next_outcome_cases os) as Hn. destruct (next_outcome os) as [o os'].
  assert (Hused : exists used, os0 = used ++ os').
  { destruct Hn as [-> | (-> & _ & ->)]; [|eauto]. exists (used ++ [o]). rewrite <- app_assoc. exact Hos. }
  destruct (flush_o_cases a file o) as [E | (file' & t & E & Hs & Hf')]; rewrite E; clear E.
  - unfold adder_flush. cbn [fst snd a_rate a_buf]. split; [|auto].
    exists (bs ++ [(a_buf a, tries)]), []. cbn [fst snd a_buf a_flushed].
    rewrite map_app, concat_app. cbn [map concat fst]. rewrite !app_nil_r.
    split; [exact Hall|]. split.
    { rewrite content_app. unfold content at 2. cbn [map concat]. rewrite app_nil_r.
      unfold batch_bytes. cbn [fst snd]. rewrite file_bytes_append, Hf.
      rewrite <- !app_assoc.
      unfold flush_writes. rewrite records_render. reflexivity. }
    split.
    { rewrite Hfl. subst all. unfold add32, u32, nlen in *. rewrite app_length in *.
      rewrite (N.mod_small (N.of_nat (length (a_buf a)))) by lia.
      rewrite N.mod_small by lia. lia. }
    split; [exact Hused|]. split; [|split; [exact Hz|left; reflexivity]].
    rewrite map_app, concat_app. cbn [map concat snd]. rewrite app_nil_r. exact Ht.
  - cbn [fst snd]. split; [|discriminate]. exists bs, (tries ++ [t]). cbn [fst snd].
    split; [exact Hall|]. split.
    { rewrite Hf', Hf, leftovers_app. unfold leftovers at 3. cbn [map concat].
      rewrite app_nil_r, <- !app_assoc. reflexivity. }
    split; [exact Hfl|]. split; [exact Hused|]. split; [|split; [exact Hz|right; exact Hrate]].
    rewrite app_assoc. apply Forall_app. split; [exact Ht|]. constructor; [|constructor].
    exists o. split; [|exact Hs]. rewrite Hos. apply in_or_app. right.
    destruct Hn as [-> | (_ & -> & _)]; [left; reflexivity | destruct Hs].
Qed.

Lemma append_inv old pre os0 os all a file d :
  pre + nlen all < 4294967296 ->
  fault_inv old pre os0 os all (a, file) ->
  a_buf a = [] \/ u32 (nlen (a_buf a)) <> a_rate a ->
  add32 (u32 (nlen (a_buf a))) (a_flushed a) = pre + nlen all /\
  fault_inv old pre os0 os (all ++ [d]) (MkAdder (a_flushed a) (a_rate a) (a_buf a ++ [d]), file).
Proof.
  intros Hlen (bs & tries & Hall & Hf & Hfl & Hos & Ht & Hz & Hr) Hb. cbn [fst snd] in *. split.
  - rewrite Hfl. subst all. unfold add32, u32, nlen in *. rewrite app_length in *.
    rewrite (N.mod_small (N.of_nat (length (a_buf a)))) by lia. rewrite N.mod_small by lia. lia.
  - assert (tries = []) as ->.
    { destruct Hr as [-> | Hr]; [reflexivity|]. exfalso. destruct Hb as [Hb | Hb]; [|congruence].
      rewrite Hb in Hr. apply Hz. rewrite <- Hr. reflexivity. }
    exists bs, []. cbn [fst snd a_buf a_flushed a_rate].
    rewrite Hall, <- app_assoc. repeat split; auto.
Qed.

Lemma add_o_inv old pre os0 os all st d :
  pre + nlen all < 4294967296 ->
  fault_inv old pre os0 os all st ->
  let '(st', os', i) := adder_add_o st os d in
  match i with
  | None => fault_inv old pre os0 os' all st'
  | Some n => n = pre + nlen all /\ fault_inv old pre os0 os' (all ++ [d]) st'
  end.
Proof.
  destruct st as [a file]. intros Hlen Hi. unfold adder_add_o.
  destruct (u32 (nlen (a_buf a)) =? a_rate a) eqn:E.
  - apply N.eqb_eq in E. pose proof (flush_o_inv _ _ _ _ _ _ _ Hlen Hi E) as H.
    destruct (next_outcome os) as [o os']. destruct (flush_o a file o) as [[a' file'] [|]].
    + destruct H as [H Hb]. cbn [negb]. apply append_inv; auto.
    + destruct H as [H _]. exact H.
  - apply N.eqb_neq in E. cbn [negb]. apply append_inv; auto.
Qed.

Lemma adds_o_inv old pre os0 ds : forall os all st,
  pre + nlen (all ++ ds) < 4294967296 ->
  fault_inv old pre os0 os all st ->
  let '(st', os', ids) := adder_adds_o st os ds in
  fault_inv old pre os0 os' (all ++ accepted ds ids) st' /\
  length ids = length ds /\
  numbers ids = map N.of_nat (seq (N.to_nat (pre + nlen all)) (length (accepted ds ids))).
Proof.
  induction ds as [|d r IH]; intros os all st Hlen Hi; cbn [adder_adds_o].
  - cbn [accepted numbers length seq map]. rewrite app_nil_r. auto.
  - assert (Hl : pre + nlen all < 4294967296).
    { unfold nlen in *. rewrite app_length in Hlen. lia. }
    pose proof (add_o_inv _ _ _ _ _ _ d Hl Hi) as H.
    destruct (adder_add_o st os d) as [[st1 os1] [n|]].
    + destruct H as [-> H]. specialize (IH os1 (all ++ [d]) st1).
      rewrite <- app_assoc in IH. specialize (IH Hlen H).
      destruct (adder_adds_o st1 os1 r) as [[st2 os2] ids]. destruct IH as (H1 & H2 & H3).
      cbn [accepted numbers length seq map]. rewrite <- app_assoc in H1.
      split; [exact H1|]. split; [congruence|]. rewrite H3. unfold nlen.
      rewrite app_length. cbn [length]. f_equal; [lia|]. f_equal. f_equal. lia.
    + specialize (IH os1 all st1). 
      assert (Hl2 : pre + nlen (all ++ r) < 4294967296).
      { unfold nlen in *. rewrite !app_length in *. cbn [length] in Hlen. lia. }
      specialize (IH Hl2 H).
      destruct (adder_adds_o st1 os1 r) as [[st2 os2] ids]. destruct IH as (H1 & H2 & H3).
      cbn [accepted numbers length]. auto.
Qed.

(** What a session leaves behind. *)
Definition session_result (old : bytes) (os : list flush_outcome) (all : list fields)
  (file : option bytes) (ok : bool) : Prop :=
  exists bs pending tries,
    all = concat (map fst bs) ++ pending /\
    file_bytes file = old ++ content bs ++ leftovers pending tries /\
    Forall (fun t => exists o, In o os /\ stopped o t) (concat (map snd bs) ++ tries) /\
    (ok = true -> pending = [] /\ tries = []).

Lemma leftovers_nil tries : leftovers [] tries = [].
Proof.
  unfold leftovers. induction tries as [|t r IH]; [reflexivity|].
  cbn [map concat]. rewrite IH. change (records []) with (@nil N). rewrite firstn_nil. reflexivity.
Qed.

Lemma close_o_inv old pre os0 os all st :
  fault_inv old pre os0 os all st ->
  let '(file, ok) := adder_close_o st os in session_result old os0 all file ok.
Proof.
  destruct st as [a file]. intros (bs & tries & Hall & Hf & Hfl & (used & Hos) & Ht & Hz & Hr).
  cbn [fst snd] in *. unfold adder_close_o. destruct (a_buf a) as [|x b] eqn:Eb.
  - exists bs, [], []. rewrite leftovers_nil in *. rewrite !app_nil_r in *.
    apply Forall_app in Ht. destruct Ht as [Ht _]. auto.
  - rewrite <- Eb in *. clear Eb.
    pose proof (next_outcome_cases os) as Hn. destruct (next_outcome os) as [o os']. cbn [fst].
    destruct (flush_o_cases a file o) as [E | (file' & t & E & Hs & Hf')]; rewrite E; clear E.
    + unfold adder_flush. exists (bs ++ [(a_buf a, tries)]), [], [].
      rewrite !map_app, !concat_app. cbn [map concat fst snd]. rewrite leftovers_nil, !app_nil_r.
      split; [exact Hall|]. split; [|auto].
      rewrite content_app. unfold content at 2. cbn [map concat]. rewrite app_nil_r.
      unfold batch_bytes. cbn [fst snd]. rewrite file_bytes_append, Hf, <- !app_assoc. 
      unfold flush_writes. rewrite records_render. reflexivity.
    + exists bs, (a_buf a), (tries ++ [t]). split; [exact Hall|]. split.
      { rewrite Hf', Hf, leftovers_app. unfold leftovers at 3. cbn [map concat].
        rewrite app_nil_r, <- !app_assoc. reflexivity. }
      split; [|discriminate].
      rewrite app_assoc. apply Forall_app. split; [exact Ht|]. constructor; [|constructor].
      exists o. split; [|exact Hs]. rewrite Hos. apply in_or_app. right.
      destruct Hn as [-> | (_ & -> & _)]; [left; reflexivity | destruct Hs].
Qed.

(** * A session *)

Definition room (docs ds : list fields) : Prop := nlen (docs ++ ds) < 4294967295.

(** The file at the start of a session, and the records the first flush adds to those of
    the documents. *)
Definition starting (prev : option bytes) (docs first : list fields) : Prop :=
  (prev = None /\ docs = [] /\ first = [zero_fields]) \/ (prev = dmd_file docs /\ first = []).

Lemma session_o_spec prev docs first fr ds os :
  starting prev docs first -> (1 <= fr < 4294967296)%Z -> room docs ds ->
  exists file ids ok,
    dmd_session_o prev fr ds os = Ok (file, ids, ok) /\
    length ids = length ds /\
    numbers ids = map N.of_nat (seq (S (length docs)) (length (accepted ds ids))) /\
    session_result (file_bytes prev) os (first ++ accepted ds ids) file ok.
Proof.
  intros Hs Hfr Hl. unfold room in Hl. unfold dmd_session_o.
  assert (Hx : exists a pre, new_adder prev fr = Ok a /\
      fault_inv (file_bytes prev) pre os os first (a, prev) /\ pre + nlen first = 1 + nlen docs).
  { assert (Hz : Z.to_N (fr mod 4294967296) <> 0) by (rewrite Z.mod_small by lia; lia).
    destruct Hs as [(-> & -> & ->) | (-> & ->)].
    - exists (MkAdder 0 (Z.to_N (fr mod 4294967296)) [zero_fields]), 0.
      unfold new_adder. assert ((fr <? 1)%Z = false) as -> by lia. split; [reflexivity|].
      split; [|reflexivity]. exists [], []. cbn [fst snd a_buf a_flushed a_rate].
      repeat split; auto; [exists []; reflexivity|constructor].
    - destruct (new_adder_reopen fr docs) as (a & Ha & _ & Hb & Hf); [lia| |].
      { unfold nlen in *. rewrite app_length in Hl. lia. }
      exists a, (1 + nlen docs). split; [exact Ha|]. split; [|change (nlen (@nil fields)) with 0; lia].
      exists [], []. cbn [fst snd]. rewrite Hb. repeat split; auto.
      + unfold leftovers, content. cbn. rewrite app_nil_r. reflexivity.
      + rewrite Hf. unfold nlen. cbn [map concat length]. lia.
      + exists []. reflexivity.
      + constructor.
      + revert Ha. unfold new_adder, dmd_file. destruct (_ =? 0); destruct (fr <? _)%Z; intros Ha; inversion Ha; exact Hz. }
  destruct Hx as (a & pre & -> & Hi & Hp). cbn [bind].
  pose proof (adds_o_inv (file_bytes prev) pre os ds os first (a, prev)) as H.
  assert (Hr : pre + nlen (first ++ ds) < 4294967296).
  { unfold nlen in *. rewrite app_length in *. lia. }
  specialize (H Hr Hi).
  destruct (adder_adds_o (a, prev) os ds) as [[st os'] ids]. destruct H as (H1 & H2 & H3).
  apply close_o_inv in H1. destruct (adder_close_o st os') as [file ok].
  exists file, ids, ok. repeat split; auto. rewrite H3. f_equal. f_equal. unfold nlen in *. lia.
Qed.

(** * What survives whatever fails *)

Lemma read_full_prefix f x off n : (0 <= off)%Z -> (0 < n)%Z -> (off + n <= zlen f)%Z ->
  read_full (f ++ x) off n = read_full f off n.
Proof.
  intros H1 H2 H3. unfold read_full, pread, zlen in *. rewrite app_length.
  assert ((off <? 0)%Z = false) as -> by lia. assert ((n <=? 0)%Z = false) as -> by lia.
  assert ((off + n <=? Z.of_nat (length f + length x))%Z = true) as -> by lia.
  assert ((off + n <=? Z.of_nat (length f))%Z = true) as -> by lia.
  f_equal. rewrite skipn_app, firstn_app, skipn_length.
  replace (Z.to_nat n - (length f - Z.to_nat off))%nat with 0%nat by lia.
  cbn [firstn]. apply app_nil_r.
Qed.

Lemma lookup_prefix f x id : 12 * id + 12 <= nlen f -> dmd_lookup (f ++ x) id = dmd_lookup f id.
Proof. intros H. unfold dmd_lookup. rewrite read_full_prefix; [reflexivity| | |]; unfold zlen, nlen in *; lia. Qed.

(** * Failures that write nothing *)

Definition writes_nothing (o : flush_outcome) : Prop :=
  match o with FailWrite 0 0 => True | FailWrite _ _ => False | _ => True end.

Lemma leftovers_zero ds tries : Forall (fun t => t = 0%nat) tries -> leftovers ds tries = [].
Proof.
  unfold leftovers. induction 1 as [|t r -> _ IH]; [reflexivity|]. cbn [map concat]. rewrite IH. reflexivity.
Qed.

Lemma content_zero bs : Forall (fun t => t = 0%nat) (concat (map snd bs)) ->
  content bs = render_dmd (concat (map fst bs)).
Proof.
  induction bs as [|[ds tries] r IH]; intros H; [reflexivity|].
  cbn [map concat snd fst] in *. apply Forall_app in H. destruct H as [H1 H2].
  change (content ((ds, tries) :: r)) with (batch_bytes (ds, tries) ++ content r).
  unfold batch_bytes. cbn [fst snd]. rewrite leftovers_zero, IH, render_dmd_app, records_render by assumption.
  reflexivity.
Qed.

Lemma clean_session prev docs first fr ds os :
  starting prev docs first -> (1 <= fr < 4294967296)%Z -> room docs ds -> Forall writes_nothing os ->
  exists file ids ok,
    dmd_session_o prev fr ds os = Ok (file, ids, ok) /\
    length ids = length ds /\
    numbers ids = map N.of_nat (seq (S (length docs)) (length (accepted ds ids))) /\
    (ok = true -> file = dmd_file (docs ++ accepted ds ids)) /\
    (ok = false -> exists some rest, first ++ accepted ds ids = some ++ rest /\
       file_bytes file = file_bytes prev ++ render_dmd some).
Proof.
  intros Hs Hfr Hl Hc.
  destruct (session_o_spec prev docs first fr ds os Hs Hfr Hl) as (file & ids & ok & E & H1 & H2 & H3).
  exists file, ids, ok. repeat (split; [assumption|]).
  destruct H3 as (bs & pending & tries & Hall & Hf & Ht & Hok).
  assert (Hz : Forall (fun t => t = 0%nat) (concat (map snd bs) ++ tries)).
  { eapply Forall_impl; [|exact Ht]. intros t (o & Ho & Hst).
    pose proof (proj1 (Forall_forall _ _) Hc o Ho) as Hw.
    destruct o as [| | |[|n] [|k]]; cbn in *; try tauto. }
  apply Forall_app in Hz. destruct Hz as [Hz1 Hz2].
  rewrite content_zero, leftovers_zero, app_nil_r in Hf by assumption. split.
  - intros ->. destruct (Hok eq_refl) as [-> ->]. rewrite app_nil_r in Hall. rewrite <- Hall in Hf.
    assert (Hx : file_bytes file = render_dmd (zero_fields :: docs ++ accepted ds ids)).
    { rewrite Hf. destruct Hs as [(-> & -> & ->) | (-> & ->)].
      - reflexivity.
      - cbn [file_bytes dmd_file app]. rewrite <- render_dmd_app. reflexivity. }
    apply file_bytes_some in Hx; [exact Hx|discriminate].
  - intros _. exists (concat (map fst bs)), pending. auto.
Qed.

(** * A write that stops in the middle *)

Lemma adds_o_none ds : forall st,
  adder_adds_o st [] ds = (fst (adder_adds st ds), [], map Some (snd (adder_adds st ds))).
Proof.
  induction ds as [|d r IH]; intros [a file]; [reflexivity|].
  cbn [adder_adds_o adder_adds]. unfold adder_add_o, adder_add. cbn [next_outcome flush_o].
  destruct (u32 (nlen (a_buf a)) =? a_rate a).
  - unfold adder_flush. cbn [negb]. rewrite IH. destruct (adder_adds _ r). reflexivity.
  - cbn [negb]. rewrite IH. destruct (adder_adds _ r). reflexivity.
Qed.

Lemma close_o_none st : adder_close_o st [] = (adder_close st, true).
Proof.
  destruct st as [a file]. unfold adder_close_o, adder_close. destruct (a_buf a); [reflexivity|].
  cbn [next_outcome fst flush_o]. unfold adder_flush. reflexivity.
Qed.

Definition prefixed (j : bytes) (st : adder * option bytes) : adder * option bytes :=
  (fst st, Some (j ++ file_bytes (snd st))).

Lemma flush_prefixed j a f : adder_flush a (Some (j ++ file_bytes f)) = prefixed j (adder_flush a f).
Proof.
  unfold adder_flush, prefixed. cbn [fst snd file_append]. rewrite file_bytes_append, app_assoc. reflexivity.
Qed.

Lemma adds_prefixed j ds : forall st,
  adder_adds (prefixed j st) ds = (prefixed j (fst (adder_adds st ds)), snd (adder_adds st ds)).
Proof.
  induction ds as [|d r IH]; intros [a file]; [reflexivity|].
  cbn [adder_adds]. unfold adder_add, prefixed at 1. cbn [fst snd].
  assert (E : (if u32 (nlen (a_buf a)) =? a_rate a
       then adder_flush a (Some (j ++ file_bytes file)) else (a, Some (j ++ file_bytes file))) =
     prefixed j (if u32 (nlen (a_buf a)) =? a_rate a then adder_flush a file else (a, file))).
  { destruct (_ =? _); [apply flush_prefixed|reflexivity]. }
  rewrite E. destruct (if u32 (nlen (a_buf a)) =? a_rate a then adder_flush a file else (a, file)) as [a1 f1].
  unfold prefixed at 1. cbn [fst snd].
  pose proof (IH (MkAdder (a_flushed a1) (a_rate a1) (a_buf a1 ++ [d]), f1)) as H.
  unfold prefixed in H at 1. cbn [fst snd] in H. rewrite H.
  destruct (adder_adds (MkAdder (a_flushed a1) (a_rate a1) (a_buf a1 ++ [d]), f1) r). reflexivity.
Qed.

Lemma close_prefixed j st : adder_close (prefixed j st) = Some (j ++ file_bytes (adder_close st)).
Proof.
  destruct st as [a file]. unfold adder_close, prefixed. cbn [fst snd].
  destruct (a_buf a); [reflexivity|]. rewrite flush_prefixed. reflexivity.
Qed.

(** Adding without reaching the flush rate. *)
Lemma adds_o_room ds : forall a file os,
  nlen (a_buf a) + nlen ds <= a_rate a -> a_rate a < 4294967296 ->
  a_flushed a + nlen (a_buf a) + nlen ds <= 4294967296 ->
  adder_adds_o (a, file) os ds =
    ((MkAdder (a_flushed a) (a_rate a) (a_buf a ++ ds), file), os,
     map (fun i => Some (N.of_nat i)) (seq (N.to_nat (a_flushed a + nlen (a_buf a))) (length ds))).
Proof.
  induction ds as [|d r IH]; intros a file os H1 H2 H3.
  - cbn. rewrite app_nil_r. destruct a; reflexivity.
  - cbn [adder_adds_o]. unfold adder_add_o.
    assert (Hl : nlen (d :: r) = 1 + nlen r) by (unfold nlen; cbn [length]; lia).
    assert (Hu : u32 (nlen (a_buf a)) = nlen (a_buf a)) by (unfold u32; apply N.mod_small; lia).
    rewrite Hu. assert ((nlen (a_buf a) =? a_rate a) = false) as -> by lia. cbn [negb].
    assert (Hb : nlen (a_buf a ++ [d]) = nlen (a_buf a) + 1) by (unfold nlen; rewrite app_length; cbn [length]; lia).
    rewrite IH; cbn [a_buf a_rate a_flushed]; [|lia|lia|lia].
    rewrite <- app_assoc. cbn [app length seq map].
    rewrite Hb. f_equal. f_equal.
    + f_equal. unfold add32, u32. rewrite N.mod_small by lia. lia.
    + f_equal. f_equal. lia.
Qed.

Lemma adds_o_app ds1 : forall st os ds2, adder_adds_o st os (ds1 ++ ds2) =
  let '(st1, os1, i1) := adder_adds_o st os ds1 in
  let '(st2, os2, i2) := adder_adds_o st1 os1 ds2 in (st2, os2, i1 ++ i2).
Proof.
  induction ds1 as [|d r IH]; intros st os ds2.
  - cbn [app adder_adds_o]. destruct (adder_adds_o st os ds2) as [[? ?] ?]. reflexivity.
  - cbn [app adder_adds_o]. destruct (adder_add_o st os d) as [[st1 os1] i]. rewrite IH.
    destruct (adder_adds_o st1 os1 r) as [[st2 os2] is]. destruct (adder_adds_o st2 os2 ds2) as [[? ?] ?].
    reflexivity.
Qed.

(** The flush that the document [x] causes writes the dummy record and then fails. *)
Lemma shifted ds1 x ds2 :
  ds1 <> [] -> nlen (ds1 ++ x :: ds2) < 4294967295 ->
  dmd_session_o None (Z.of_nat (S (length ds1))) (ds1 ++ x :: ds2) [FailWrite 1 0] =
  Ok (Some (render_dmd (zero_fields :: zero_fields :: ds1 ++ ds2)),
      map (fun i => Some (N.of_nat i)) (seq 1 (length ds1)) ++ None ::
      map (fun i => Some (N.of_nat i)) (seq (S (length ds1)) (length ds2)), true).
Proof.
  intros Hne Hl. unfold dmd_session_o, new_adder.
  assert (Hl' : nlen ds1 + nlen ds2 + 1 < 4294967295).
  { unfold nlen in *. rewrite app_length in Hl. cbn [length] in Hl. lia. }
  assert (Hr : Z.to_N (Z.of_nat (S (length ds1)) mod 4294967296) = 1 + nlen ds1).
  { unfold nlen in *. rewrite Z.mod_small by lia. lia. }
  rewrite Hr. assert ((Z.of_nat (S (length ds1)) <? 1)%Z = false) as -> by lia. cbn [bind].
  rewrite adds_o_app, adds_o_room; cbn [a_buf a_rate a_flushed]; [|change (nlen [zero_fields]) with 1; lia|lia|change (nlen [zero_fields]) with 1; lia].
  cbn [adder_adds_o]. unfold adder_add_o. cbn [a_buf a_rate a_flushed].
  assert (Hb : u32 (nlen ([zero_fields] ++ ds1)) = 1 + nlen ds1).
  { unfold u32, nlen in *. rewrite app_length. cbn [length]. rewrite N.mod_small; lia. }
  rewrite Hb, N.eqb_refl. cbn [next_outcome flush_o]. unfold flush_writes. cbn [a_buf].
  destruct ds1 as [|d0 ds1']; [congruence|].
  change (nth_error (map enc_fields ([zero_fields] ++ d0 :: ds1')) 1) with (Some (enc_fields d0)).
  cbn [negb]. change (firstn 1 (map enc_fields ([zero_fields] ++ d0 :: ds1'))) with [enc_fields zero_fields].
  cbn [firstn file_append]. set (ds1 := d0 :: ds1') in *.
  set (a := MkAdder 0 (1 + nlen ds1) ([zero_fields] ++ ds1)).
  rewrite adds_o_none.
  change (a, Some (concat [enc_fields zero_fields] ++ [])) with (prefixed (render_dmd [zero_fields]) (a, Some [])).
  rewrite adds_prefixed. cbn [fst snd]. rewrite close_o_none, close_prefixed.
  destruct (adder_adds_inv ds2 ([zero_fields] ++ ds1) (a, Some [])) as [H1 H2].
  { unfold nlen in *. rewrite !app_length. cbn [length]. lia. }
  { exists []. cbn. auto. }
  apply adder_close_inv in H1.
  2:{ unfold nlen in *. rewrite !app_length. cbn [length]. lia. }
  rewrite H1, H2. rewrite <- render_dmd_app, <- app_assoc. cbn [app].
  f_equal. f_equal. f_equal. rewrite map_map. reflexivity.
Qed.

(** * Over histories, in the form used by Props/DmdFault *)

Definition history_ok (h : list (Z * list fields)) (ds : list fields) : Prop :=
  Forall (fun s => (1 <= fst s)%Z) h /\
  nlen (concat (map snd h) ++ ds) < 4294967295 /\
  Forall wf_fields (concat (map snd h) ++ ds).

Lemma history_starting h ds prev ids0 : history_ok h ds -> dmd_sessions None h = Ok (prev, ids0) ->
  starting prev (concat (map snd h)) (match h with [] => [zero_fields] | _ => [] end).
Proof.
  intros (H1 & H2 & _) H. destruct h as [|s r].
  - inversion H. left. auto.
  - right. rewrite history_result in H; [|discriminate|assumption|].
    + inversion H. auto.
    + unfold nlen in *. rewrite app_length in H2. lia.
Qed.

Lemma fault_batches h fr ds os prev ids0 :
  history_ok h ds -> (1 <= fr < 4294967296)%Z -> dmd_sessions None h = Ok (prev, ids0) ->
  exists file ids ok bs pending tries,
    dmd_session_o prev fr ds os = Ok (file, ids, ok) /\
    length ids = length ds /\
    numbers ids = map N.of_nat (seq (length (concat (map snd h)) + 1) (length (accepted ds ids))) /\
    (match h with [] => [zero_fields] | _ => [] end) ++ accepted ds ids = concat (map fst bs) ++ pending /\
    file_bytes file = file_bytes prev ++ concat (map batch_bytes bs) ++ leftovers pending tries /\
    Forall (fun t => exists o, In o os /\ stopped o t) (concat (map snd bs) ++ tries) /\
    (ok = true -> pending = [] /\ tries = []).
Proof.
  intros Hh Hfr H. pose proof (history_starting _ _ _ _ Hh H) as Hs.
  destruct (session_o_spec prev _ _ fr ds os Hs Hfr) as (file & ids & ok & E & H1 & H2 & H3).
  { destruct Hh as (_ & Hl & _). exact Hl. }
  destruct H3 as (bs & pending & tries & R). exists file, ids, ok, bs, pending, tries.
  split; [exact E|]. split; [exact H1|]. split; [|exact R].
  rewrite H2. f_equal. f_equal. lia.
Qed.

Lemma accepted_wf ds : forall ids, Forall wf_fields ds -> Forall wf_fields (accepted ds ids).
Proof.
  induction ds as [|d r IH]; intros [|[i|] is] H; cbn [accepted]; try constructor; inversion H; subst; auto.
Qed.

Lemma fault_clean h fr ds os prev ids0 :
  history_ok h ds -> (1 <= fr < 4294967296)%Z -> dmd_sessions None h = Ok (prev, ids0) ->
  Forall writes_nothing os ->
  exists file ids ok,
    dmd_session_o prev fr ds os = Ok (file, ids, ok) /\
    length ids = length ds /\
    numbers ids = map N.of_nat (seq (length (concat (map snd h)) + 1) (length (accepted ds ids))) /\
    (ok = true -> exists f, file = Some f /\
       forall k d, nth_error (concat (map snd h) ++ accepted ds ids) k = Some d ->
         dmd_lookup f (N.of_nat (k + 1)) = Ok d).
Proof.
  intros Hh Hfr H Hc. pose proof (history_starting _ _ _ _ Hh H) as Hs.
  destruct (clean_session prev _ _ fr ds os Hs Hfr) as (file & ids & ok & E & H1 & H2 & H3 & _).
  { destruct Hh as (_ & Hl & _). exact Hl. }
  { exact Hc. }
  exists file, ids, ok. split; [exact E|]. split; [exact H1|]. split.
  { rewrite H2. f_equal. f_equal. lia. }
  intros Hok. eexists. split; [exact (H3 Hok)|]. intros k d Hk.
  replace (k + 1)%nat with (S k) by lia. apply dmd_lookup_file; [|exact Hk].
  destruct Hh as (_ & _ & Hw). apply Forall_app in Hw. apply Forall_app. split; [tauto|].
  apply accepted_wf. tauto.
Qed.

Lemma fault_earlier h fr ds os prev ids0 :
  history_ok h ds -> (1 <= fr < 4294967296)%Z -> dmd_sessions None h = Ok (prev, ids0) ->
  h <> [] ->
  exists file ids ok, dmd_session_o prev fr ds os = Ok (Some file, ids, ok) /\
    forall k d, nth_error (concat (map snd h)) k = Some d -> dmd_lookup file (N.of_nat (k + 1)) = Ok d.
Proof.
  intros Hh Hfr H Hne. pose proof (history_starting _ _ _ _ Hh H) as Hs.
  destruct h as [|s r]; [congruence|]. destruct Hs as [(_ & _ & Hs) | (-> & _)]; [discriminate|].
  set (docs := concat (map snd (s :: r))) in *.
  destruct Hh as (_ & Hl & Hw). fold docs in Hl, Hw.
  destruct (session_o_spec (dmd_file docs) docs [] fr ds os) as (file & ids & ok & E & _ & _ & R);
    [right; auto|assumption|assumption|].
  destruct R as (bs & pending & tries & _ & Hf & _ & _). destruct file as [file|].
  2:{ exfalso. cbn [file_bytes dmd_file] in Hf.
      pose proof (render_dmd_length (zero_fields :: docs)) as L.
      symmetry in Hf. apply app_eq_nil in Hf. destruct Hf as [Hf _]. rewrite Hf in L. cbn [length] in L. lia. }
  exists file, ids, ok. split; [exact E|]. intros k d Hk. cbn [file_bytes dmd_file] in Hf. rewrite Hf.
  rewrite lookup_prefix.
  - replace (k + 1)%nat with (S k) by lia. apply dmd_lookup_file; [|exact Hk].
    apply Forall_app in Hw. tauto.
  - unfold nlen. rewrite render_dmd_length. cbn [length].
    assert (k < length docs)%nat by (apply nth_error_Some; congruence). lia.
Qed.

Lemma fault_shifted ds1 x ds2 :
  ds1 <> [] -> nlen (ds1 ++ x :: ds2) < 4294967295 -> Forall wf_fields (ds1 ++ x :: ds2) ->
  exists file ids,
    dmd_session_o None (Z.of_nat (length ds1 + 1)) (ds1 ++ x :: ds2) [FailWrite 1 0] = Ok (Some file, ids, true) /\
    accepted (ds1 ++ x :: ds2) ids = ds1 ++ ds2 /\
    numbers ids = map N.of_nat (seq 1 (length (ds1 ++ ds2))) /\
    forall k d, nth_error (zero_fields :: ds1 ++ ds2) k = Some d -> dmd_lookup file (N.of_nat (k + 1)) = Ok d.
Proof.
  intros Hne Hl Hw. eexists _, _. replace (length ds1 + 1)%nat with (S (length ds1)) by lia.
  split; [apply shifted; assumption|].
  assert (Ha : forall ds s is rest, accepted (ds ++ rest) (map (fun i => Some (N.of_nat i)) (seq s (length ds)) ++ is) = ds ++ accepted rest is).
  { induction ds as [|d r IH]; intros s is rest; [reflexivity|]. cbn [length seq map app accepted]. rewrite IH. reflexivity. }
  assert (Hn : forall l is, numbers (map (fun i => Some (N.of_nat i)) l ++ is) = map N.of_nat l ++ numbers is).
  { induction l as [|d r IH]; intros is; [reflexivity|]. cbn [map app numbers]. rewrite IH. reflexivity. }
  split; [|split].
  - rewrite Ha. cbn [accepted]. f_equal. pose proof (Ha ds2 (S (length ds1)) [] []) as H.
    rewrite !app_nil_r in H. exact H.
  - rewrite Hn. cbn [numbers]. pose proof (Hn (seq (S (length ds1)) (length ds2)) []) as H.
    rewrite !app_nil_r in H. rewrite H, app_length, seq_app, map_app. reflexivity.
  - intros k d Hk. replace (k + 1)%nat with (S k) by lia. apply dmd_lookup_file; [|exact Hk].
    apply Forall_app in Hw. destruct Hw as [Hw1 Hw2]. inversion Hw2; subst.
    constructor; [repeat split; cbn; lia|]. apply Forall_app. auto.
Qed.
