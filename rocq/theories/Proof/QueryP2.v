(** Query.Next with entries that have room for every posting list. *)
From Coq Require Import Permutation Sorting.Sorted.
From Verif Require Import Model.Base Model.Address Model.Post Model.Poster Model.Shard Model.Dmd Model.Fnames Model.Config Model.Index Model.Query.
From Verif Require Import Spec.Reading Spec.Querying Proof.Tactics Proof.AddressP Proof.QueryP.
Local Open Scope N_scope.

Lemma perm_concat_upd {A} (f g : nat -> list A) p x n : (p < n)%nat ->
  f p = x :: g p -> (forall s, s <> p -> f s = g s) ->
  Permutation (concat (map f (seq 0 n))) (x :: concat (map g (seq 0 n))).
Proof.
  intros L E H. assert (G : forall b m, (b <= p < b + m)%nat -> Permutation (concat (map f (seq b m))) (x :: concat (map g (seq b m)))).
  { intros b m. revert b. induction m as [|m IH]; intros b Lb; [lia|]. cbn [seq map concat].
    destruct (Nat.eq_dec b p) as [->|Nb].
    - rewrite E. assert (X : map f (seq (S p) m) = map g (seq (S p) m)).
      { apply map_ext_in. intros y Hy. apply in_seq in Hy. apply H. lia. }
      rewrite X. cbn [app]. reflexivity.
    - rewrite (H b Nb). rewrite IH by lia. symmetry. apply Permutation_middle. }
  apply G. lia.
Qed.
Lemma skipn_nth_cons {A} (l : list A) a d : (a < length l)%nat -> skipn a l = nth a l d :: skipn (S a) l.
Proof.
  revert l. induction a as [|a IH]; intros [|x l] H; cbn [length] in H; try lia; [reflexivity|].
  cbn [skipn nth]. rewrite IH by lia. reflexivity.
Qed.
Lemma In_skipn_nth {A} (l : list A) a x d : In x (skipn a l) -> exists j, (a <= j < length l)%nat /\ nth j l d = x.
Proof.
  revert l. induction a as [|a IH]; intros l H.
  - cbn [skipn] in H. destruct (In_nth l x d H) as (j & L & E). exists j. split; [lia|exact E].
  - destruct l as [|y l]; [destruct H|]. cbn [skipn] in H. destruct (IH l H) as (j & L & E). exists (S j). cbn [length nth]. split; [lia|exact E].
Qed.
Lemma filter_none {A} (f : A -> bool) l : (forall x, In x l -> f x = false) -> filter f l = [].
Proof. induction l as [|x l IH]; intros H; cbn [filter]; [reflexivity|]. rewrite (H x) by (left; reflexivity). apply IH. intros y Hy. apply H. right. exact Hy. Qed.
Lemma concat_nil_all {A} (f : nat -> list A) l : (forall s, In s l -> f s = []) -> concat (map f l) = [].
Proof. induction l as [|x l IH]; intros H; cbn [map concat]; [reflexivity|]. rewrite (H x) by (left; reflexivity). apply IH. intros y Hy. apply H. right. exact Hy. Qed.

(** setMax: the first state with the largest total, or 0. *)
Lemma set_max_loop_spec ss : forall i max p,
  let r := set_max_loop ss i max p in
  (r = p /\ (forall j s, nth_error ss j = Some (Some s) -> rs_total s <= max)) \/
  (exists j s, r = i + N.of_nat j /\ nth_error ss j = Some (Some s) /\ max < rs_total s /\
     forall j' s', nth_error ss j' = Some (Some s') -> rs_total s' <= rs_total s).
Proof.
  induction ss as [|o ss IH]; intros i max p; cbn [set_max_loop].
  - left. split; [reflexivity|]. intros [|j] s E; discriminate.
  - destruct o as [s0|].
    + destruct (N.ltb_spec max (rs_total s0)) as [L|L].
      * destruct (IH (i + 1) (rs_total s0) i) as [(E & A)|(j & s & E & Ej & Ls & A)]; cbv zeta in *.
        -- right. exists 0%nat, s0. split; [rewrite E; lia|]. split; [reflexivity|]. split; [exact L|].
           intros [|j'] s' E'; cbn [nth_error] in E'; [inv E'; lia|eauto].
        -- right. exists (S j), s. split; [rewrite E; lia|]. split; [exact Ej|]. split; [lia|].
           intros [|j'] s' E'; cbn [nth_error] in E'; [inv E'; lia|eauto].
      * destruct (IH (i + 1) max p) as [(E & A)|(j & s & E & Ej & Ls & A)]; cbv zeta in *.
        -- left. split; [exact E|]. intros [|j'] s' E'; cbn [nth_error] in E'; [inv E'; lia|eauto].
        -- right. exists (S j), s. split; [rewrite E; lia|]. split; [exact Ej|]. split; [lia|].
           intros [|j'] s' E'; cbn [nth_error] in E'; [inv E'; lia|eauto].
    + destruct (IH (i + 1) max p) as [(E & A)|(j & s & E & Ej & Ls & A)]; cbv zeta in *.
      * left. split; [exact E|]. intros [|j'] s' E'; cbn [nth_error] in E'; [discriminate|eauto].
      * right. exists (S j), s. split; [rewrite E; lia|]. split; [exact Ej|]. split; [lia|].
        intros [|j'] s' E'; cbn [nth_error] in E'; [discriminate|eauto].
Qed.

Section N.
  Variable grow : nat -> nat.
  Variables (ix : index) (place : N -> bytes * N * N) (n : nat) (content : nat -> nat -> list N).
  Hypothesis I : index_ok ix n content place.
  Variable fuel : nat.
  Hypothesis Hf : forall s b, (s < n)%nat -> (b < num_slots)%nat -> (length (content s b) < fuel)%nat.

  Notation roomy := (roomy n content).

  Lemma fill_loop_free f ids : forall k ps ds, reads f ps ids -> (forall d, In d ids -> docid2doc ix d = Ok (place d)) ->
    docs_wf ds -> (length ids < k)%nat ->
    exists ds' ps', fill_loop grow ix k false f ps ds = Ok (ds', ps', true) /\ docs_wf ds' /\
      docs_list ds' = docs_list ds ++ map (fun d => key_doc (place d) []) ids.
  Proof.
    induction ids as [|d ids IH]; intros [|k] ps ds R Pl W L; cbn [length] in L; try lia; cbn [fill_loop andb reads map] in *.
    - rewrite R. exists ds, ps. rewrite app_nil_r. auto.
    - destruct R as (ps' & E & R). rewrite E, (Pl d) by (left; reflexivity). cbn [bind].
      destruct (place d) as [[p s] e] eqn:Ep.
      destruct (put_doc_free grow ds p s e W) as (ds1 & E1 & W1 & L1 & _). rewrite E1. cbn [bind].
      destruct (IH k ps' ds1 R) as (ds2 & ps2 & E2 & W2 & L2); auto; [|lia|].
      { intros x Hx. apply Pl. right. exact Hx. }
      exists ds2, ps2. split; [exact E2|]. split; [exact W2|]. rewrite L2, L1, <- app_assoc. reflexivity.
  Qed.
  Lemma fill_loop_room f : forall ids k ps m back, reads f ps ids -> (forall d, In d ids -> docid2doc ix d = Ok (place d)) ->
    (m + length ids < length back)%nat -> (length ids < k)%nat ->
    exists ps', fill_loop grow ix k true f ps (Some (m, back)) =
      Ok (Some ((m + length ids)%nat, store m (map place ids) back), ps', true).
  Proof.
    induction ids as [|d ids IH]; intros [|k] ps m back R Pl W L; cbn [length] in *; try lia; cbn [fill_loop reads map] in *.
    - cbn [docs_len docs_cap andb]. destruct (Nat.ltb_spec m (length back)); [|lia]. cbn [negb]. rewrite R. exists ps.
      cbn [store]. rewrite Nat.add_0_r. reflexivity.
    - cbn [docs_len docs_cap andb]. destruct (Nat.ltb_spec m (length back)); [|lia]. cbn [negb].
      destruct R as (ps' & E & R). rewrite E, (Pl d) by (left; reflexivity). cbn [bind].
      destruct (place d) as [[p s] e] eqn:Ep. rewrite put_doc_lim by lia. cbn [bind].
      destruct (IH k ps' (S m) (upd m (MkDoc p s e (d_dat (nth m back zero_doc))) back) R) as (ps2 & E2).
      { intros x Hx. apply Pl. right. exact Hx. } { rewrite upd_length. lia. } { lia. }
      exists ps2. rewrite E2. cbn [store]. replace (m + S (length ids))%nat with (S m + length ids)%nat by lia. reflexivity.
  Qed.
  (** What a filled entry looks like. *)
  Definition filled (e : blot_entry) (s b : nat) : Prop :=
    docs_wf (be_docs e) /\ docs_keys (be_docs e) = map place (content s b).
  Lemma filled_len e s b : filled e s b -> docs_len (be_docs e) = length (content s b).
  Proof.
    intros [W E]. unfold docs_keys in E. apply (f_equal (@length _)) in E. rewrite !map_length in E.
    destruct (be_docs e) as [[m back]|]; cbn [docs_list docs_len docs_wf] in *; [|exact E].
    rewrite firstn_length in E. lia.
  Qed.
  Definition reset (lim : bool) (ds : docs) : docs :=
    if lim then match ds with None => None | Some (_, back) => Some (0%nat, back) end else None.
  Lemma fill_roomy e f s b ps bl : roomy e -> (s < n)%nat -> (b < num_slots)%nat -> reads f ps (content s b) ->
    exists ds ps', fill_loop grow ix fuel (negb (is_nil (be_docs e))) f ps (be_docs e) = Ok (ds, ps', true) /\
      filled (MkEntry bl ds) s b /\ roomy (MkEntry bl (reset (negb (is_nil (be_docs e))) ds)).
  Proof.
    intros Ro Hs Hb R. assert (Pl : forall d, In d (content s b) -> docid2doc ix d = Ok (place d)).
    { intros d Hd. eapply (io_place _ _ _ _ I); eauto. }
    pose proof (Hf s b Hs Hb) as Hsb. unfold Querying.roomy in Ro. destruct (be_docs e) as [[m back]|]; cbn [is_nil negb].
    - destruct Ro as [-> Ro]. specialize (Ro s b Hs Hb) as Rsb.
      destruct (fill_loop_room f (content s b) fuel ps 0 back R Pl) as (ps' & E); [lia|lia|].
      rewrite E. cbn [Nat.add]. eexists _, _. split; [reflexivity|]. split.
      + unfold filled, docs_keys. cbn [be_docs docs_wf docs_list]. split; [rewrite store_length; lia|].
        pose proof (store_keys grow (map place (content s b)) 0 back) as X. rewrite map_length in X. cbn [Nat.add firstn map app] in X.
        apply X. lia.
      + unfold Querying.roomy, reset. cbn [be_docs]. split; [reflexivity|]. rewrite store_length. exact Ro.
    - destruct (fill_loop_free f (content s b) fuel ps None R Pl Logic.I Hsb) as (ds & ps' & E & W & L).
      rewrite E. eexists _, _. split; [reflexivity|]. split.
      + unfold filled, docs_keys. cbn [be_docs]. split; [exact W|]. rewrite L. cbn [docs_list app]. rewrite map_map.
        apply map_ext. intros d. destruct (place d) as [[p q] r]. reflexivity.
      + exact Logic.I.
  Qed.

  (** Positions in the orders of the shards. *)
  Notation pos := (nat * nat)%type.
  Definition cnt (x : pos) : nat := length (content (fst x) (snd x)).
  Definition two (s b : nat) : bool := (2 <=? length (content s b))%nat.
  Definition permof (s : nat) : list nat := match nth_error (ix_shards ix) s with Some si => si_perm si | None => [] end.
  Definition rest (s : nat) (o : option nat) : list pos :=
    match o with None => [] | Some a => map (pair s) (filter (two s) (skipn a (permof s))) end.
  Definition todo (h : nat -> option nat) : list pos := concat (map (fun s => rest s (h s)) (seq 0 n)).
  Definition hset (h : nat -> option nat) (p : nat) (v : option nat) : nat -> option nat :=
    fun s => if (s =? p)%nat then v else h s.

  Lemma permof_spec s : (s < n)%nat -> exists si, nth_error (ix_shards ix) s = Some si /\ permof s = si_perm si /\
    length (permof s) = num_slots /\ (forall b, In b (permof s) -> (b < num_slots)%nat) /\
    (forall i j, (i <= j < num_slots)%nat -> (length (content s (nth j (permof s) 0%nat)) <= length (content s (nth i (permof s) 0%nat)))%nat).
  Proof.
    intros L. destruct (nth_shard grow ix place n content I s L) as [si E]. exists si. unfold permof. rewrite E.
    destruct (io_perm _ _ _ _ I s si E) as [Pm Srt].
    assert (Lp : length (si_perm si) = num_slots) by (rewrite (Permutation_length Pm); apply seq_length).
    assert (Rg : forall b, In b (si_perm si) -> (b < num_slots)%nat).
    { intros b Hb. eapply Permutation_in in Hb; [|exact Pm]. apply in_seq in Hb. lia. }
    split; [reflexivity|]. split; [reflexivity|]. split; [exact Lp|]. split; [exact Rg|].
    intros i j Hij. specialize (Srt i j Hij).
    destruct (io_reads _ _ _ _ I s si E (nth j (si_perm si) 0%nat)) as [_ Cj]; [apply Rg, nth_In; lia|].
    destruct (io_reads _ _ _ _ I s si E (nth i (si_perm si) 0%nat)) as [_ Ci]; [apply Rg, nth_In; lia|].
    rewrite Cj, Ci in Srt. unfold nlen in Srt. lia.
  Qed.
  (** Everything from position [a] on has at most as many documents as position [a]. *)
  Lemma rest_le s a x : (s < n)%nat -> (a < num_slots)%nat -> In x (rest s (Some a)) ->
    (2 <= cnt x)%nat /\ (cnt x <= length (content s (nth a (permof s) 0%nat)))%nat /\ fst x = s.
  Proof.
    intros Hs Ha Hx. destruct (permof_spec s Hs) as (si & E & Ep & Lp & Rg & Srt). cbn [rest] in Hx.
    apply in_map_iff in Hx. destruct Hx as (b & <- & Hb). apply filter_In in Hb. destruct Hb as [Hb Tb].
    apply (In_skipn_nth _ _ _ 0%nat) in Hb. destruct Hb as (j & Lj & <-). unfold cnt, two in *. cbn [fst snd].
    split; [apply Nat.leb_le, Tb|]. split; [|reflexivity]. apply Srt. lia.
  Qed.
  Lemma rest_small s a : (s < n)%nat -> (a < num_slots)%nat -> (length (content s (nth a (permof s) 0%nat)) <= 1)%nat -> rest s (Some a) = [].
  Proof.
    intros Hs Ha Hc. destruct (rest s (Some a)) as [|x r] eqn:E; [reflexivity|].
    destruct (rest_le s a x Hs Ha) as (A & B & _); [rewrite E; left; reflexivity|]. lia.
  Qed.
  Lemma rest_cons s a : (s < n)%nat -> (a < num_slots)%nat -> (2 <= length (content s (nth a (permof s) 0%nat)))%nat ->
    rest s (Some a) = (s, nth a (permof s) 0%nat) :: map (pair s) (filter (two s) (skipn (S a) (permof s))).
  Proof.
    intros Hs Ha Hc. destruct (permof_spec s Hs) as (si & E & Ep & Lp & _). cbn [rest].
    rewrite (skipn_nth_cons _ a 0%nat) by lia. cbn [filter]. unfold two at 1.
    destruct (Nat.leb_spec 2 (length (content s (nth a (permof s) 0%nat)))); [|lia]. reflexivity.
  Qed.

  (** The invariant of the query state, [em] being the positions returned so far. *)
  Record QI (q : qstate) (h : nat -> option nat) (em : list pos) : Prop := {
    qi_n : q_n q = N.of_nat n;
    qi_len : length (q_states q) = n;
    qi_st : forall s si, nth_error (ix_shards ix) s = Some si ->
      nth_error (q_states q) s = Some (option_map (read_state_at si) (h s));
    qi_h : forall s a, (s < n)%nat -> h s = Some a -> (a < num_slots)%nat;
    qi_i : q_i q < N.of_nat n;
    qi_max : forall s a, (s < n)%nat -> h s = Some a ->
      content s (nth a (permof s) 0%nat) = [] \/
      exists a', h (N.to_nat (q_i q)) = Some a' /\
        (length (content s (nth a (permof s) 0%nat)) <= length (content (N.to_nat (q_i q)) (nth a' (permof (N.to_nat (q_i q))) 0%nat)))%nat;
    qi_perm : Permutation (em ++ todo h) (concat (map (fun s => rest s (Some 0%nat)) (seq 0 n)));
    qi_sorted : StronglySorted (fun x y => (cnt y <= cnt x)%nat) em;
    qi_below : forall x y, In x em -> In y (todo h) -> (cnt y <= cnt x)%nat }.

  Lemma in_todo h x : In x (todo h) -> exists s, (s < n)%nat /\ In x (rest s (h s)).
  Proof.
    unfold todo. intros H. apply in_concat in H. destruct H as (l & Hl & Hx). apply in_map_iff in Hl.
    destruct Hl as (s & <- & Hs). apply in_seq in Hs. exists s. split; [lia|exact Hx].
  Qed.
  Lemma total_of s si a : nth_error (ix_shards ix) s = Some si -> (a < num_slots)%nat ->
    rs_total (read_state_at si a) = nlen (content s (nth a (permof s) 0%nat)).
  Proof.
    intros E Ha. assert (Hs : (s < n)%nat) by (rewrite <- (io_len _ _ _ _ I); apply nth_error_Some; congruence).
    destruct (permof_spec s Hs) as (si' & E' & Ep & Lp & Rg & _). rewrite E in E'. inv E'.
    unfold read_state_at, read_state_for_blot_at. cbn [rs_total]. rewrite Ep in *.
    apply (io_reads _ _ _ _ I s si' E). apply Rg, nth_In. lia.
  Qed.
  (** setMax establishes [qi_i] and [qi_max]. *)
  Lemma max_ok q h : length (q_states q) = n ->
    (forall s si, nth_error (ix_shards ix) s = Some si -> nth_error (q_states q) s = Some (option_map (read_state_at si) (h s))) ->
    (forall s a, (s < n)%nat -> h s = Some a -> (a < num_slots)%nat) ->
    q_i (set_max q) < N.of_nat n /\
    forall s a, (s < n)%nat -> h s = Some a ->
      content s (nth a (permof s) 0%nat) = [] \/
      exists a', h (N.to_nat (q_i (set_max q))) = Some a' /\
        (length (content s (nth a (permof s) 0%nat)) <= length (content (N.to_nat (q_i (set_max q))) (nth a' (permof (N.to_nat (q_i (set_max q)))) 0%nat)))%nat.
  Proof.
    intros Ln St Hh. pose proof (io_pos _ _ _ _ I) as Pn.
    assert (TS : forall s a, (s < n)%nat -> h s = Some a -> exists rs, nth_error (q_states q) s = Some (Some rs) /\
        rs_total rs = nlen (content s (nth a (permof s) 0%nat))).
    { intros s a Hs Ha. destruct (nth_shard grow ix place n content I s Hs) as [si E]. exists (read_state_at si a).
      rewrite (St s si E), Ha. split; [reflexivity|]. apply total_of; [exact E|eauto]. }
    unfold set_max. cbn [q_i].
    destruct (set_max_loop_spec (q_states q) 0 0 0) as [(E & A)|(j & rs & E & Ej & Lt & A)]; cbv zeta in *; rewrite E.
    - split; [lia|]. intros s a Hs Ha. left. destruct (TS s a Hs Ha) as (rs & Er & T). specialize (A s rs Er).
      unfold nlen in T. destruct (content s (nth a (permof s) 0%nat)); [reflexivity|cbn [length] in T; lia].
    - replace (N.to_nat (0 + N.of_nat j)) with j by lia.
      assert (Lj : (j < n)%nat) by (rewrite <- Ln; apply nth_error_Some; congruence).
      split; [lia|]. intros s a Hs Ha. right. destruct (nth_shard grow ix place n content I j Lj) as [sj Esj].
      pose proof (St j sj Esj) as Sj. rewrite Ej in Sj. destruct (h j) as [a'|] eqn:Hj; [|discriminate]. cbn [option_map] in Sj. assert (rs = read_state_at sj a') as -> by congruence.
      exists a'. split; [reflexivity|]. destruct (TS s a Hs Ha) as (rs & Er & T). specialize (A s rs Er). clear TS.
      rewrite T, (total_of j sj a' Esj) in A by eauto. unfold nlen in A. lia.
  Qed.

  Lemma advance_spec q h p a rs s : length (q_states q) = n ->
    (forall s si, nth_error (ix_shards ix) s = Some si -> s <> p -> nth_error (q_states q) s = Some (option_map (read_state_at si) (h s))) ->
    (p < n)%nat -> nth_error (ix_shards ix) s <> None -> (a < num_slots)%nat ->
    rs_at rs = a -> rs_total rs = nlen (content s (nth a (permof s) 0%nat)) ->
    exists q' v, advance ix q rs p = Ok q' /\
      (v = None \/ v = Some (S a)) /\ ((length (content s (nth a (permof s) 0%nat)) <= 1)%nat -> v = None) /\
      ((2 <= length (content s (nth a (permof s) 0%nat)))%nat -> v = if (S a =? num_slots)%nat then None else Some (S a)) /\
      length (q_states q') = n /\ q_n q' = q_n q /\ q_nil q' = q_nil q /\
      (forall s si, nth_error (ix_shards ix) s = Some si -> nth_error (q_states q') s = Some (option_map (read_state_at si) (hset h p v s))) /\
      q' = set_max q'.
  Proof.
    intros Ln St Hp _ Ha Ea Et. unfold advance. destruct (nth_shard grow ix place n content I p Hp) as [sp Ep]. rewrite Ep, Ea, Et.
    assert (UP : forall o v, o = option_map (read_state_at sp) v ->
      let q' := set_max (MkQ (upd p o (q_states q)) (q_i q) (q_n q) (q_nil q)) in
      length (q_states q') = n /\ q_n q' = q_n q /\ q_nil q' = q_nil q /\
      (forall s si, nth_error (ix_shards ix) s = Some si -> nth_error (q_states q') s = Some (option_map (read_state_at si) (hset h p v s))) /\
      q' = set_max q').
    { intros o v Eo. cbv zeta. unfold set_max at 1 2 3. cbn [q_states q_n q_nil]. rewrite upd_length. split; [exact Ln|].
      split; [reflexivity|]. split; [reflexivity|]. split.
      - intros t si Et'. unfold set_max. cbn [q_states]. rewrite nth_error_upd. unfold hset.
        destruct (Nat.eqb_spec p t) as [->|Np].
        + assert (t < length (q_states q))%nat as Lt by lia. apply nth_error_Some in Lt.
          destruct (nth_error (q_states q) t); [|congruence]. rewrite Nat.eqb_refl. assert (si = sp) as -> by congruence. rewrite Eo. reflexivity.
        + destruct (Nat.eqb_spec t p); [congruence|]. apply St; auto.
      - unfold set_max. cbn [q_states q_i q_n q_nil]. reflexivity. }
    destruct (N.eqb_spec (N.of_nat a) 65535) as [E1|E1].
    - cbn [bind]. eexists _, None. split; [reflexivity|]. split; [auto|]. split; [auto|]. split.
      + intros _. destruct (Nat.eqb_spec (S a) num_slots) as [X|X]; [reflexivity|]. exfalso. apply X. unfold num_slots. lia.
      + apply UP. reflexivity.
    - destruct (N.leb_spec (nlen (content s (nth a (permof s) 0%nat))) 1) as [E2|E2]; unfold nlen in E2.
      + cbn [bind]. eexists _, None. split; [reflexivity|]. split; [auto|]. split; [auto|]. split; [intros; lia|]. apply UP. reflexivity.
      + cbn [bind]. eexists _, (Some (S a)). split; [reflexivity|]. split; [auto|]. split; [intros; lia|]. split.
        * intros _. destruct (Nat.eqb_spec (S a) num_slots) as [X|X]; [|reflexivity]. exfalso. unfold num_slots in X. lia.
        * apply UP. cbn [option_map]. do 2 f_equal. lia.
  Qed.

  Definition p32 : N := 4294967296.
  (** How many nil states setMax and the round robin still have to meet before Next gives up. *)
  Definition gap (q : qstate) : N := (N.of_nat n + p32 - 1 - q_nil q) mod p32 + 1.
  Definition hh (o : option nat) : nat := match o with None => 0 | Some a => num_slots - a end.
  Definition height (h : nat -> option nat) : nat := list_sum (map (fun s => hh (h s)) (seq 0 n)).
  Lemma height_lt h h' p : (p < n)%nat -> (forall s, (s < n)%nat -> (hh (h' s) <= hh (h s))%nat) -> (hh (h' p) < hh (h p))%nat -> (height h' < height h)%nat.
  Proof.
    intros Lp Le Lt. unfold height.
    assert (G : forall m b, (b + m <= n)%nat -> (list_sum (map (fun s => hh (h' s)) (seq b m)) <= list_sum (map (fun s => hh (h s)) (seq b m)))%nat /\
      ((b <= p < b + m)%nat -> (list_sum (map (fun s => hh (h' s)) (seq b m)) < list_sum (map (fun s => hh (h s)) (seq b m)))%nat)).
    { induction m as [|m IH]; intros b Lb; cbn [seq map list_sum fold_right]; [split; lia|].
      destruct (IH (S b)) as [A B]; [lia|]. pose proof (Le b ltac:(lia)) as C. unfold list_sum in *. cbn [fold_right]. split; [lia|]. intros Hb.
      destruct (Nat.eq_dec b p) as [->|Nb]; [lia|]. specialize (B ltac:(lia)). lia. }
    apply (G n 0%nat); lia.
  Qed.

  (** Positions left over are no longer than the one of the current shard. *)
  Lemma todo_le q h em a x : QI q h em -> h (N.to_nat (q_i q)) = Some a -> In x (todo h) ->
    (2 <= cnt x)%nat /\ (cnt x <= length (content (N.to_nat (q_i q)) (nth a (permof (N.to_nat (q_i q))) 0%nat)))%nat.
  Proof.
    intros Q Ha Hx. destruct (in_todo h x Hx) as (s & Hs & Hr). destruct (h s) as [a'|] eqn:Es; [|destruct Hr].
    destruct (rest_le s a' x Hs (qi_h _ _ _ Q s a' Hs Es) Hr) as (A & B & _). split; [exact A|].
    destruct (qi_max _ _ _ Q s a' Hs Es) as [E|(a2 & E2 & L2)].
    - rewrite E in B. cbn [length] in B. lia.
    - rewrite Ha in E2. injection E2 as <-. lia.
  Qed.
  Lemma todo_nil q h em : QI q h em -> h (N.to_nat (q_i q)) = None -> todo h = [].
  Proof.
    intros Q Ha. destruct (todo h) as [|x r] eqn:E; [reflexivity|]. exfalso.
    assert (Hx : In x (todo h)) by (rewrite E; left; reflexivity).
    destruct (in_todo h x Hx) as (s & Hs & Hr). destruct (h s) as [a'|] eqn:Es; [|destruct Hr].
    destruct (rest_le s a' x Hs (qi_h _ _ _ Q s a' Hs Es) Hr) as (A & B & _).
    destruct (qi_max _ _ _ Q s a' Hs Es) as [E1|(a2 & E2 & _)]; [|congruence].
    rewrite E1 in B. cbn [length] in B. lia.
  Qed.
  Lemma todo_small q h em a : QI q h em -> h (N.to_nat (q_i q)) = Some a ->
    (length (content (N.to_nat (q_i q)) (nth a (permof (N.to_nat (q_i q))) 0%nat)) <= 1)%nat -> todo h = [].
  Proof.
    intros Q Ha L. destruct (todo h) as [|x r] eqn:E; [reflexivity|]. exfalso.
    destruct (todo_le q h em a x Q Ha) as [A B]; [rewrite E; left; reflexivity|]. lia.
  Qed.

  Definition entry_is (x : pos) (e : blot_entry) : Prop :=
    be_blot e = N.of_nat (snd x) * N.of_nat n + N.of_nat (fst x) /\ filled e (fst x) (snd x).
  Definition rooms (m : nat) (dst : list blot_entry) : Prop := forall j e, (m <= j)%nat -> nth_error dst j = Some e -> roomy e.
  Lemma rooms_upd m e dst : roomy e -> rooms m dst -> rooms m (upd m e dst).
  Proof. intros R H j x Lj Ex. rewrite nth_error_upd in Ex. destruct (m =? j)%nat; [destruct (nth_error dst j); inv Ex; exact R|eauto]. Qed.
  Lemma rooms_upd_S m e dst : rooms m dst -> rooms (S m) (upd m e dst).
  Proof. intros H j x Lj Ex. rewrite nth_error_upd in Ex. destruct (Nat.eqb_spec m j); [lia|]. eapply H; [|exact Ex]. lia. Qed.

  Inductive round (r : qrun) (h : nat -> option nat) (em : list pos) : result (qrun * verdict) -> Prop :=
    | round_full : (length (r_dst r) <= r_n r)%nat -> round r h em (Ok (r, Return))
    | round_done q : (r_n r < length (r_dst r))%nat -> todo h = [] -> QI q h em -> q_nil q = N.of_nat n -> gap (r_q r) = 1 ->
        round r h em (Ok (MkRun q (r_dst r) (r_n r), if (r_n r =? 0)%nat then ReturnEOF else Return))
    | round_nil q : (r_n r < length (r_dst r))%nat -> todo h = [] -> QI q h em -> q_nil q < p32 -> gap (r_q r) = gap q + 1 ->
        round r h em (Ok (MkRun q (r_dst r) (r_n r), Again))
    | round_small q h' e : (r_n r < length (r_dst r))%nat -> todo h = [] -> todo h' = [] -> QI q h' em -> q_nil q = q_nil (r_q r) ->
        (height h' < height h)%nat -> roomy e ->
        round r h em (Ok (MkRun q (upd (r_n r) e (r_dst r)) (r_n r), Again))
    | round_hit q h' e x : (r_n r < length (r_dst r))%nat -> In x (todo h) -> QI q h' (em ++ [x]) -> q_nil q = q_nil (r_q r) ->
        (height h' < height h)%nat -> entry_is x e ->
        round r h em (Ok (MkRun q (upd (r_n r) e (r_dst r)) (S (r_n r)), Again)).

  Lemma next_iter_spec r h em : QI (r_q r) h em -> q_nil (r_q r) < p32 -> rooms (r_n r) (r_dst r) ->
    round r h em (next_iter grow ix fuel r).
  Proof.
    intros Q Hnil Ro. unfold next_iter. destruct (nth_error (r_dst r) (r_n r)) as [entry|] eqn:Ee.
    2:{ apply nth_error_None in Ee. constructor. exact Ee. }
    assert (Ln : (r_n r < length (r_dst r))%nat) by (apply nth_error_Some; congruence).
    pose proof (Ro _ _ (le_n _) Ee) as Re. pose proof (io_max _ _ _ _ I) as Mx.
    set (q := r_q r) in *. set (p := N.to_nat (q_i q)) in *.
    assert (Lp : (p < n)%nat) by (pose proof (qi_i _ _ _ Q); unfold p; lia).
    destruct (nth_shard grow ix place n content I p Lp) as [si Esi]. rewrite (qi_st _ _ _ Q p si Esi).
    destruct (h p) as [a|] eqn:Ha; cbn [option_map].
    - pose proof (qi_h _ _ _ Q p a Lp Ha) as La.
      destruct (permof_spec p Lp) as (si' & E' & Ep & Lpm & Rg & Srt). assert (si' = si) as -> by congruence. clear E'.
      set (b := nth a (permof p) 0%nat) in *. assert (Lb : (b < num_slots)%nat) by (apply Rg, nth_In; lia).
      unfold fill_blot. rewrite Esi, fill_blot_id_u32.
      set (b32 := u32 (u32 (N.of_nat (rs_blot (read_state_at si a))) * q_n q + q_i q)).
      destruct (io_reads _ _ _ _ I p si Esi b Lb) as [Rd Ct].
      assert (Ers : read_state_at si a = MkReadState b a (nlen (content p b)) (new_posts (nth b (si_heads si) (-1)%Z))).
      { unfold read_state_at, read_state_for_blot_at. rewrite <- Ep. fold b. rewrite Ct. reflexivity. }
      destruct (fill_roomy entry (si_file si) p b _ b32 Re Lp Lb Rd) as (ds & ps' & Ef & Fl & Rr).
      rewrite Ers in *. cbn [rs_posts rs_blot rs_at rs_total] in *. rewrite Ef. cbn [bind].
      set (src' := MkReadState b a (nlen (content p b)) ps').
      set (q1 := MkQ (upd p (Some src') (q_states q)) (q_i q) (q_n q) (q_nil q)).
      destruct (advance_spec q1 h p a src' p) as (q2 & v & Ea & Hv & Hv1 & Hv2 & L2 & N2 & Nl2 & S2 & M2); auto.
      { unfold q1. cbn [q_states]. rewrite upd_length. apply Q. }
      { intros s si0 E0 Ne. unfold q1. cbn [q_states]. rewrite nth_error_upd_ne by auto. apply (qi_st _ _ _ Q); auto. }
      { congruence. }
      rewrite Ea. cbn [bind be_docs be_blot]. pose proof (filled_len _ _ _ Fl) as Fn. cbn [be_docs] in Fn. rewrite Fn.
      fold b in Hv1, Hv2.
      assert (Hh2 : forall s a0, (s < n)%nat -> hset h p v s = Some a0 -> (a0 < num_slots)%nat).
      { intros s a0 Ls E0. unfold hset in E0. destruct (Nat.eqb_spec s p) as [->|Ns]; [|eapply (qi_h _ _ _ Q); eauto].
        destruct (Nat.leb_spec (length (content p b)) 1) as [X|X]; [rewrite (Hv1 X) in E0; discriminate|].
        rewrite (Hv2 X) in E0. destruct (Nat.eqb_spec (S a) num_slots); [discriminate|]. inv E0. lia. }
      destruct (Nat.leb_spec (length (content p b)) 1) as [Sm|Big].
      + rewrite (Hv1 Sm) in *. clear Hv Hv1 Hv2.
        destruct (max_ok q2 (hset h p None) L2 S2 Hh2) as [Li2 _]. rewrite <- M2 in Li2.
        set (p2 := N.to_nat (q_i q2)) in *. assert (Lp2 : (p2 < n)%nat) by (unfold p2; lia).
        destruct (advance_spec q2 (hset h p None) p2 a (MkReadState b a (nlen (content p b)) (new_posts (nth b (si_heads si) (-1)%Z))) p)
          as (q3 & v3 & Ea3 & Hv3 & Hv13 & _ & L3 & N3 & Nl3 & S3 & M3); auto; [congruence|].
        rewrite Ea3. cbn [bind]. fold b in Hv13. rewrite (Hv13 Sm) in *.
        assert (T0 : todo h = []) by (eapply todo_small; eauto).
        set (h3 := hset (hset h p None) p2 None) in *.
        assert (Hsub : forall s, h3 s = None \/ h3 s = h s).
        { intros s. unfold h3, hset. destruct (s =? p2)%nat; auto. destruct (s =? p)%nat; auto. }
        assert (T3 : todo h3 = []).
        { unfold todo. apply concat_nil_all. intros s Hs. apply in_seq in Hs. destruct (Hsub s) as [-> | ->]; [reflexivity|].
          destruct (rest s (h s)) as [|x l] eqn:Er; [reflexivity|]. exfalso.
          assert (In x (todo h)).
          { unfold todo. apply in_concat. exists (rest s (h s)). split; [apply in_map_iff; exists s; split; [reflexivity|apply in_seq; lia]|].
            rewrite Er. left. reflexivity. }
          rewrite T0 in H. destruct H. }
        assert (H3 : forall s a0, (s < n)%nat -> h3 s = Some a0 -> (a0 < num_slots)%nat).
        { intros s a0 Ls E0. destruct (Hsub s) as [X|X]; [congruence|]. rewrite X in E0. eapply (qi_h _ _ _ Q); eauto. }
        destruct (max_ok q3 h3 L3 S3 H3) as [Li3 Mx3]. rewrite <- M3 in Li3, Mx3.
        apply round_small with (h' := h3); auto.
        * constructor; auto.
          -- rewrite N3, N2. apply (qi_n _ _ _ Q).
          -- rewrite T3, <- T0. apply (qi_perm _ _ _ Q).
          -- apply (qi_sorted _ _ _ Q).
          -- rewrite T3. intros x y _ [].
        * rewrite Nl3, Nl2. reflexivity.
        * apply height_lt with (p := p); [exact Lp| |].
          -- intros s Ls. destruct (Hsub s) as [-> | ->]; cbn [hh]; lia.
          -- unfold h3, hset. rewrite Nat.eqb_refl. rewrite Ha. destruct (p =? p2)%nat; cbn [hh]; lia.
      + assert (Ev : rest p v = map (pair p) (filter (two p) (skipn (S a) (permof p)))).
        { rewrite (Hv2 Big). destruct (Nat.eqb_spec (S a) num_slots) as [X|X]; [|reflexivity].
          cbn [rest]. rewrite skipn_all2 by lia. reflexivity. }
        assert (PT : Permutation (todo h) ((p, b) :: todo (hset h p v))).
        { unfold todo. apply (perm_concat_upd _ (fun s => rest s (hset h p v s)) p); [exact Lp| |].
          - unfold hset. rewrite Nat.eqb_refl, Ev, Ha. unfold b. apply rest_cons; auto.
          - intros s Ns. unfold hset. destruct (Nat.eqb_spec s p); [congruence|reflexivity]. }
        assert (Tle : forall y, In y (todo h) -> (cnt y <= cnt (p, b))%nat).
        { intros y Hy. apply (todo_le _ _ _ a y Q Ha Hy). }
        assert (Inpb : In (p, b) (todo h)).
        { eapply Permutation_in; [symmetry; exact PT|]. left. reflexivity. }
        destruct (max_ok q2 _ L2 S2 Hh2) as [Li2 Mx2]. rewrite <- M2 in Li2, Mx2.
        apply round_hit with (h' := hset h p v) (x := (p, b)); auto.
        * constructor; auto.
          -- rewrite N2. apply (qi_n _ _ _ Q).
          -- rewrite <- (qi_perm _ _ _ Q), PT, <- app_assoc. reflexivity.
          -- assert (G : forall l, StronglySorted (fun x y => (cnt y <= cnt x)%nat) l -> (forall x, In x l -> (cnt (p, b) <= cnt x)%nat) ->
               StronglySorted (fun x y => (cnt y <= cnt x)%nat) (l ++ [(p, b)])).
             { induction l as [|x l IH]; intros Sl Al; cbn [app]; [constructor; [constructor|constructor]|].
               inversion Sl as [|? ? S1 F1]; subst. constructor; [apply IH; [exact S1|intros y Hy; apply Al; right; exact Hy]|].
               apply Forall_app. split; [exact F1|]. constructor; [|constructor]. apply Al. left. reflexivity. }
             apply G; [apply (qi_sorted _ _ _ Q)|]. intros x Hx. apply (qi_below _ _ _ Q); auto.
          -- intros x y Hx Hy. assert (Hy' : In y (todo h)) by (eapply Permutation_in; [symmetry; exact PT|right; exact Hy]).
             apply in_app_or in Hx. destruct Hx as [Hx|[<-|[]]]; [apply (qi_below _ _ _ Q); auto|apply Tle; exact Hy'].
        * apply height_lt with (p := p); [exact Lp| |].
          -- intros s Ls. unfold hset. destruct (Nat.eqb_spec s p) as [->|]; [|lia]. rewrite Ha. destruct Hv as [-> | ->]; cbn [hh]; lia.
          -- unfold hset. rewrite Nat.eqb_refl, Ha. destruct Hv as [-> | ->]; cbn [hh]; lia.
        * split; [|exact Fl]. cbn [be_blot fst snd]. unfold b32, u32. rewrite ?Ers. cbn [rs_blot]. rewrite (qi_n _ _ _ Q).
          unfold num_slots in Lb. rewrite (N.mod_small (N.of_nat b)) by lia. replace (q_i q) with (N.of_nat p) by (unfold p; lia).
          apply N.mod_small. assert (N.of_nat b * N.of_nat n <= 65535 * N.of_nat n) by (apply N.mul_le_mono_r; lia). lia.
    - assert (T0 : todo h = []) by (eapply todo_nil; eauto). rewrite (qi_n _ _ _ Q).
      pose proof (io_pos _ _ _ _ I) as Pn. unfold p32 in *.
      assert (QI' : forall i nil, i < N.of_nat n -> QI (MkQ (q_states q) i (N.of_nat n) nil) h em).
      { intros i nil Li. constructor; cbn [q_n q_states q_i]; auto; try apply Q.
        intros s a Ls Es. left. destruct (qi_max _ _ _ Q s a Ls Es) as [X|(a' & X & _)]; [exact X|].
        fold p in X. congruence. }
      destruct (N.eqb_spec (u32 (q_nil q + 1)) (N.of_nat n)) as [En|En].
      + apply round_done; auto; [apply QI', (qi_i _ _ _ Q)|]. unfold gap, p32. fold q. unfold u32 in En.
        destruct (N.eq_dec (q_nil q + 1) 4294967296) as [X|X]; [rewrite X in En; cbn in En; lia|].
        rewrite N.mod_small in En by lia. replace (N.of_nat n + 4294967296 - 1 - q_nil q) with (1 * 4294967296) by lia.
        rewrite N.mod_mul by lia. reflexivity.
      + assert (Li : (if u32 (q_i q + 1) =? N.of_nat n then 0 else u32 (q_i q + 1)) < N.of_nat n).
        { pose proof (qi_i _ _ _ Q). unfold u32. rewrite N.mod_small by lia. destruct (N.eqb_spec (q_i q + 1) (N.of_nat n)); lia. }
        apply round_nil; auto.
        * cbn [q_nil]. unfold u32, p32. apply N.mod_lt. lia.
        * unfold gap, p32. fold q. cbn [q_nil]. unfold u32 in *.
          destruct (N.eq_dec (q_nil q + 1) 4294967296) as [X|X].
          -- rewrite X. replace (q_nil q) with 4294967295 by lia.
             replace (4294967296 mod 4294967296) with 0 by reflexivity.
             rewrite (N.mod_small (N.of_nat n + 4294967296 - 1 - 4294967295)) by lia.
             replace (N.of_nat n + 4294967296 - 1 - 0) with (N.of_nat n - 1 + 1 * 4294967296) by lia.
             rewrite N.mod_add, N.mod_small by lia. lia.
          -- rewrite (N.mod_small (q_nil q + 1)) in * by lia.
             destruct (N.ltb_spec (q_nil q + 1) (N.of_nat n)) as [Y|Y].
             ++ replace (N.of_nat n + 4294967296 - 1 - q_nil q) with (N.of_nat n - 1 - q_nil q + 1 * 4294967296) by lia.
                replace (N.of_nat n + 4294967296 - 1 - (q_nil q + 1)) with (N.of_nat n - 2 - q_nil q + 1 * 4294967296) by lia.
                rewrite !N.mod_add, !N.mod_small by lia. lia.
             ++ rewrite !N.mod_small by lia. lia.
  Qed.

  Definition call_ok (r r' : qrun) (h h' : nat -> option nat) (em new : list pos) (eof : bool) : Prop :=
    QI (r_q r') h' (em ++ new) /\ q_nil (r_q r') < p32 /\ r_n r' = (r_n r + length new)%nat /\
    length (r_dst r') = length (r_dst r) /\
    (exists es, firstn (r_n r') (r_dst r') = firstn (r_n r) (r_dst r) ++ es /\ Forall2 entry_is new es) /\
    ((eof = false /\ (length (r_dst r') <= r_n r')%nat) \/
     (todo h' = [] /\ q_nil (r_q r') = N.of_nat n /\ eof = (r_n r' =? 0)%nat)).

  (** Next returns, and what it has returned then. *)
  Lemma next_loop_spec : forall m r h em, (height h + N.to_nat (gap (r_q r)) < m)%nat ->
    QI (r_q r) h em -> q_nil (r_q r) < p32 -> rooms (r_n r) (r_dst r) -> (r_n r <= length (r_dst r))%nat ->
    exists k r' h' new eof, next_loop grow ix fuel k r = Ok (r', eof) /\ call_ok r r' h h' em new eof.
  Proof.
    induction m as [|m IH]; intros r h em Lm Q Hn Ro Ln; [lia|].
    pose proof (next_iter_spec r h em Q Hn Ro) as R. inversion R as [X E|q L T Qq Nq G E|q L T Qq Nq G E|q h' e L T T' Qq Nq Hh Re E|q h' e x L Hx Qq Nq Hh Ee E].
    - exists 1%nat, r, h, [], false. cbn [next_loop]. rewrite <- E. cbn [bind]. split; [reflexivity|].
      split; [rewrite app_nil_r; exact Q|]. cbn [length]. split; [exact Hn|]. split; [lia|]. split; [reflexivity|].
      split; [exists []; rewrite app_nil_r; auto|]. left. auto.
    - exists 1%nat, (MkRun q (r_dst r) (r_n r)), h, [], (r_n r =? 0)%nat. cbn [next_loop]. rewrite <- E. cbn [bind]. split; [destruct (r_n r =? 0)%nat; reflexivity|].
      split; [rewrite app_nil_r; exact Qq|]. cbn [length r_q r_n r_dst]. pose proof (io_max _ _ _ _ I). split; [unfold p32; lia|]. split; [lia|]. split; [reflexivity|].
      split; [exists []; rewrite app_nil_r; auto|]. right. auto.
    - destruct (IH (MkRun q (r_dst r) (r_n r)) h em) as (k & r' & h' & new & eof & E2 & C); cbn [r_q r_n r_dst]; auto; [lia|].
      exists (S k), r', h', new, eof. cbn [next_loop]. rewrite <- E. cbn [bind]. split; [exact E2|exact C].
    - destruct (IH (MkRun q (upd (r_n r) e (r_dst r)) (r_n r)) h' em) as (k & r' & h2 & new & eof & E2 & C); cbn [r_q r_n r_dst]; auto.
      { unfold gap in *. rewrite Nq. lia. } { rewrite Nq. exact Hn. } { apply rooms_upd; auto. } { rewrite upd_length. exact Ln. }
      exists (S k), r', h2, new, eof. cbn [next_loop]. rewrite <- E. cbn [bind]. split; [exact E2|].
      destruct C as (C1 & C2 & C3 & C4 & (es & C5 & C5') & C6). cbn [r_q r_n r_dst] in *. rewrite upd_length in C4.
      split; [exact C1|]. split; [exact C2|]. split; [exact C3|]. split; [exact C4|]. split; [|exact C6].
      exists es. rewrite firstn_upd_le in C5 by lia. auto.
    - destruct (IH (MkRun q (upd (r_n r) e (r_dst r)) (S (r_n r))) h' (em ++ [x])) as (k & r' & h2 & new & eof & E2 & C); cbn [r_q r_n r_dst]; auto.
      { unfold gap in *. rewrite Nq. lia. } { rewrite Nq. exact Hn. } { apply rooms_upd_S; auto. } { rewrite upd_length. lia. }
      exists (S k), r', h2, (x :: new), eof. cbn [next_loop]. rewrite <- E. cbn [bind]. split; [exact E2|].
      destruct C as (C1 & C2 & C3 & C4 & (es & C5 & C5') & C6). cbn [r_q r_n r_dst] in *. rewrite upd_length in C4.
      split; [rewrite <- app_assoc in C1; exact C1|]. split; [exact C2|]. cbn [length]. split; [lia|]. split; [exact C4|]. split; [|exact C6].
      exists (e :: es). rewrite firstn_upd_S in C5 by lia. rewrite <- app_assoc in C5. split; [exact C5|]. constructor; auto.
  Qed.
  (** With nothing left it takes as many rounds as nil states are to be met. *)
  Lemma next_loop_spins : forall k r h em, QI (r_q r) h em -> q_nil (r_q r) < p32 -> rooms (r_n r) (r_dst r) ->
    (r_n r < length (r_dst r))%nat -> todo h = [] -> N.of_nat k < gap (r_q r) -> next_loop grow ix fuel k r = Loop.
  Proof.
    induction k as [|k IH]; intros r h em Q Hn Ro Ln T0 Lk; [reflexivity|]. cbn [next_loop].
    pose proof (next_iter_spec r h em Q Hn Ro) as R. inversion R as [X E|q L T Qq Nq G E|q L T Qq Nq G E|q h' e L T T' Qq Nq Hh Re E|q h' e x L Hx Qq Nq Hh Ee E]; cbn [bind].
    - lia.
    - lia.
    - apply IH with (h := h) (em := em); cbn [r_q r_n r_dst]; auto. lia.
    - apply IH with (h := h') (em := em); cbn [r_q r_n r_dst]; auto.
      + rewrite Nq. exact Hn.
      + apply rooms_upd; auto.
      + rewrite upd_length. exact Ln.
      + unfold gap in *. rewrite Nq. lia.
    - rewrite T0 in Hx. destruct Hx.
  Qed.
  Lemma next_loop_mono : forall k k' r x, next_loop grow ix fuel k r = Ok x -> (k <= k')%nat -> next_loop grow ix fuel k' r = Ok x.
  Proof. clear Hf I content n place.
    induction k as [|k IH]; intros [|k'] r x E L; cbn [next_loop] in *; try discriminate; try lia.
    destruct (next_iter grow ix fuel r) as [[r1 v]|e| |]; cbn [bind] in *; try discriminate.
    destruct v; auto. apply IH; [exact E|lia].
  Qed.
  Lemma next_loop_det k k' r x y : next_loop grow ix fuel k r = Ok x -> next_loop grow ix fuel k' r = Ok y -> x = y.
  Proof. clear Hf I content n place.
    intros A B. destruct (Nat.le_ge_cases k k') as [L|L].
    - apply (next_loop_mono _ _ _ _ A) in L. congruence.
    - apply (next_loop_mono _ _ _ _ B) in L. congruence.
  Qed.

  Lemma start_QI : QI (start_query ix) (fun _ => Some 0%nat) [] /\ q_nil (start_query ix) = 0.
  Proof.
    pose proof (io_len _ _ _ _ I) as Ln. unfold start_query. rewrite (u32_n grow ix place n content I). split; [|reflexivity].
    set (q0 := MkQ (map (fun s => Some (read_state_at s 0)) (ix_shards ix)) 0 (N.of_nat n) 0).
    destruct (max_ok q0 (fun _ => Some 0%nat)) as [Li Mx].
    - unfold q0. cbn [q_states]. rewrite map_length. exact Ln.
    - intros s si E. unfold q0. cbn [q_states option_map]. rewrite nth_error_map, E. reflexivity.
    - intros s a _ E. inv E. unfold num_slots. lia.
    - constructor; auto.
      + unfold set_max. cbn [q_states q0]. rewrite map_length. exact Ln.
      + intros s si E. unfold set_max. cbn [q_states q0 option_map]. rewrite nth_error_map, E. reflexivity.
      + intros s a _ E. inv E. unfold num_slots. lia.
      + constructor.
      + intros x y [].
  Qed.

  (** The numbers of the positions. *)
  Definition number (x : pos) : N := N.of_nat (snd x) * N.of_nat n + N.of_nat (fst x).
  Definition valid (x : pos) : Prop := (fst x < n)%nat /\ (snd x < num_slots)%nat.
  Lemma number_back x : valid x -> N.to_nat (number x mod N.of_nat n) = fst x /\ N.to_nat (number x / N.of_nat n mod 65536) = snd x /\
    number x < N.of_nat n * 65536.
  Proof.
    intros [A B]. unfold number. unfold num_slots in B.
    assert (E1 : (N.of_nat (snd x) * N.of_nat n + N.of_nat (fst x)) mod N.of_nat n = N.of_nat (fst x)).
    { rewrite N.add_comm, N.mod_add by lia. apply N.mod_small. lia. }
    assert (E2 : (N.of_nat (snd x) * N.of_nat n + N.of_nat (fst x)) / N.of_nat n = N.of_nat (snd x)).
    { rewrite N.add_comm, N.div_add by lia. rewrite N.div_small by lia. lia. }
    rewrite E1, E2. rewrite N.mod_small by lia. split; [lia|]. split; [lia|].
    assert (N.of_nat (snd x) * N.of_nat n <= 65535 * N.of_nat n) by (apply N.mul_le_mono_r; lia). lia.
  Qed.
  Lemma number_inj x y : valid x -> valid y -> number x = number y -> x = y.
  Proof.
    intros Vx Vy E. destruct (number_back x Vx) as (A & B & _). destruct (number_back y Vy) as (A' & B' & _).
    rewrite E in *. destruct x, y; cbn [fst snd] in *. congruence.
  Qed.
  Definition all_dups : list pos := concat (map (fun s => rest s (Some 0%nat)) (seq 0 n)).
  Lemma in_all_dups x : In x all_dups <-> valid x /\ (2 <= cnt x)%nat.
  Proof.
    unfold all_dups. rewrite in_concat. split.
    - intros (l & Hl & Hx). apply in_map_iff in Hl. destruct Hl as (s & <- & Hs). apply in_seq in Hs.
      destruct (permof_spec s ltac:(lia)) as (si & _ & _ & _ & Rg & _).
      cbn [rest skipn] in Hx. apply in_map_iff in Hx. destruct Hx as (b & <- & Hb). apply filter_In in Hb.
      unfold valid, cnt. cbn [fst snd]. destruct Hb as [Hb T]. split; [split; [lia|auto]|]. apply Nat.leb_le. exact T.
    - intros [[A B] C]. exists (rest (fst x) (Some 0%nat)). split.
      + apply in_map_iff. exists (fst x). split; [reflexivity|]. apply in_seq. lia.
      + cbn [rest skipn]. apply in_map_iff. exists (snd x). split; [destruct x; reflexivity|]. apply filter_In. split.
        * destruct (nth_shard grow ix place n content I (fst x) A) as [si E]. unfold permof. rewrite E.
          destruct (io_perm _ _ _ _ I _ _ E) as [Pm _]. eapply Permutation_in; [symmetry; exact Pm|]. apply in_seq. lia.
        * unfold two. apply Nat.leb_le. exact C.
  Qed.
  Lemma NoDup_filter' {A} (f : A -> bool) l : NoDup l -> NoDup (filter f l).
  Proof.
    induction 1 as [|x l Hx N IH]; cbn [filter]; [constructor|]. destruct (f x); [|exact IH]. constructor; [|exact IH].
    intros C. apply filter_In in C. tauto.
  Qed.
  Lemma all_dups_nodup : NoDup all_dups.
  Proof.
    unfold all_dups. assert (G : forall m b, (b + m <= n)%nat -> NoDup (concat (map (fun s => rest s (Some 0%nat)) (seq b m)))).
    { induction m as [|m IH]; intros b Lb; cbn [seq map concat]; [constructor|].
      assert (D : forall l1 l2 : list pos, NoDup l1 -> NoDup l2 -> (forall x, In x l1 -> ~ In x l2) -> NoDup (l1 ++ l2)).
      { induction 1 as [|x l Hx N IHl]; intros N2 D; cbn [app]; [exact N2|]. constructor.
        - intros C. apply in_app_or in C. destruct C; [auto|]. apply (D x); [left; reflexivity|assumption].
        - apply IHl; auto. intros y Hy. apply D. right. exact Hy. }
      apply D.
      - cbn [rest skipn]. destruct (nth_shard grow ix place n content I b ltac:(lia)) as [si E]. unfold permof. rewrite E.
        destruct (io_perm _ _ _ _ I _ _ E) as [Pm _]. apply FinFun.Injective_map_NoDup; [intros u v X; congruence|].
        apply NoDup_filter'. eapply Permutation_NoDup; [symmetry; exact Pm|]. apply seq_NoDup.
      - apply IH. lia.
      - intros x Hx C. apply in_concat in C. destruct C as (l & Hl & Hx2). apply in_map_iff in Hl. destruct Hl as (s & <- & Hs).
        apply in_seq in Hs. cbn [rest] in Hx, Hx2. apply in_map_iff in Hx. apply in_map_iff in Hx2.
        destruct Hx as (b1 & <- & _). destruct Hx2 as (b2 & X & _). inv X. lia. }
    apply G. lia.
  Qed.

  Notation good := (Forall roomy).
  Lemma good_rooms dst : good dst -> rooms 0 dst.
  Proof. intros G j e _ E. rewrite Forall_forall in G. apply G. eapply nth_error_In, E. Qed.
  (** What a call does, from an invariant state. *)
  Lemma call_spec q h em k dst r eof : QI q h em -> q_nil q < p32 -> good dst ->
    query_next grow ix fuel k q dst = Ok (r, eof) ->
    exists h' new, QI (r_q r) h' (em ++ new) /\ q_nil (r_q r) < p32 /\ Forall2 entry_is new (firstn (r_n r) (r_dst r)) /\
      r_n r = length new /\ length (r_dst r) = length dst /\
      ((eof = false /\ (length dst <= r_n r)%nat) \/ (todo h' = [] /\ q_nil (r_q r) = N.of_nat n /\ eof = (r_n r =? 0)%nat)).
  Proof.
    intros Q Hn G E. unfold query_next in E.
    destruct (next_loop_spec (S (height h + N.to_nat (gap q))) (MkRun q dst 0) h em) as (k' & r' & h' & new & eof' & E' & C);
      cbn [r_q r_n r_dst]; auto; [|lia|]. { apply good_rooms, G. }
    pose proof (next_loop_det _ _ _ _ _ E E') as X. injection X as <- <-.
    destruct C as (C1 & C2 & C3 & C4 & (es & C5 & C5') & C6). cbn [r_q r_n r_dst firstn app Nat.add] in *.
    exists h', new. rewrite C5. split; [exact C1|]. split; [exact C2|]. split; [exact C5'|]. split; [exact C3|]. split; [exact C4|].
    rewrite C4 in C6. exact C6.
  Qed.
  Lemma queried_spec q out : queried grow ix fuel good q out -> exists h em, QI q h em /\ q_nil q < p32 /\ Forall2 entry_is em out.
  Proof.
    induction 1 as [|q out dst k r eof _ (h & em & Q & Hn & F) G E].
    - destruct start_QI as [Q E]. exists (fun _ => Some 0%nat), []. split; [exact Q|]. rewrite E. split; [reflexivity|constructor].
    - destruct (call_spec q h em k dst r eof Q Hn G E) as (h' & new & Q' & Hn' & F' & _).
      exists h', (em ++ new). split; [exact Q'|]. split; [exact Hn'|]. apply Forall2_app; auto.
  Qed.
  (** Every call returns. *)
  Theorem next_returns q out dst : queried grow ix fuel good q out -> good dst ->
    exists k r eof, query_next grow ix fuel k q dst = Ok (r, eof).
  Proof.
    intros R G. destruct (queried_spec q out R) as (h & em & Q & Hn & _).
    destruct (next_loop_spec (S (height h + N.to_nat (gap q))) (MkRun q dst 0) h em) as (k & r & h' & new & eof & E & C);
      cbn [r_q r_n r_dst]; auto; [|lia|]. { apply good_rooms, G. }
    exists k, r, eof. exact E.
  Qed.
  (** What has been returned when a call reports end of file. *)
  Lemma at_eof q out k dst r : queried grow ix fuel good q out -> good dst -> query_next grow ix fuel k q dst = Ok (r, true) ->
    exists em, Forall2 entry_is em out /\ Permutation em all_dups /\ StronglySorted (fun x y => (cnt y <= cnt x)%nat) em.
  Proof.
    intros R G E. destruct (queried_spec q out R) as (h & em & Q & Hn & F).
    destruct (call_spec q h em k dst r true Q Hn G E) as (h' & new & Q' & _ & F' & Ln & _ & D).
    destruct D as [[X _]|(T & _ & Z)]; [discriminate|]. symmetry in Z. apply Nat.eqb_eq in Z.
    assert (new = []) as -> by (destruct new; [reflexivity|cbn [length] in Ln; lia]). rewrite app_nil_r in Q'.
    exists em. split; [exact F|]. split; [|apply (qi_sorted _ _ _ Q')].
    pose proof (qi_perm _ _ _ Q') as P. rewrite T, app_nil_r in P. exact P.
  Qed.
  Definition pos_of (blot : N) : pos := (N.to_nat (blot mod N.of_nat n), N.to_nat (blot / N.of_nat n mod 65536)).
  Lemma pos_number blot : blot < N.of_nat n * 65536 -> valid (pos_of blot) /\ number (pos_of blot) = blot.
  Proof.
    intros L. pose proof (io_pos _ _ _ _ I) as Pn. unfold pos_of, valid, number, num_slots. cbn [fst snd].
    assert (A : blot mod N.of_nat n < N.of_nat n) by (apply N.mod_lt; lia).
    assert (B : blot / N.of_nat n < 65536) by (apply N.div_lt_upper_bound; lia).
    rewrite (N.mod_small _ 65536) by lia. split; [split; lia|]. rewrite !N2Nat.id. pose proof (N.div_mod blot (N.of_nat n) ltac:(lia)). lia.
  Qed.
  Lemma entries_blots em out : Forall2 entry_is em out -> map be_blot out = map number em.
  Proof. induction 1 as [|x e l l' [E _] _ IH]; cbn [map]; [reflexivity|]. rewrite E, IH. reflexivity. Qed.
  Lemma entries_in em out : Forall2 entry_is em out -> forall e, In e out -> exists x, In x em /\ entry_is x e.
  Proof. induction 1 as [|x e l l' E _ IH]; intros e' [] ; subst; eauto using in_eq. destruct (IH e' H) as (x' & A & B). eauto using in_cons. Qed.

  Theorem next_complete q out k dst r : queried grow ix fuel good q out -> good dst -> query_next grow ix fuel k q dst = Ok (r, true) ->
    NoDup (map be_blot out) /\
    (forall blot, In blot (map be_blot out) <-> duplicated n content blot) /\
    (forall e, In e out -> docs_keys (be_docs e) = map place (at_blot n content (be_blot e))).
  Proof.
    intros R G E. destruct (at_eof q out k dst r R G E) as (em & F & P & _). rewrite (entries_blots em out F).
    assert (V : forall x, In x em -> valid x /\ (2 <= cnt x)%nat).
    { intros x Hx. apply in_all_dups. eapply Permutation_in; eauto. }
    split; [|split].
    - assert (N1 : NoDup em) by (eapply Permutation_NoDup; [symmetry; exact P|apply all_dups_nodup]).
      clear F P. induction N1 as [|x l Hx N1 IH]; cbn [map]; [constructor|]. constructor.
      + intros C. apply in_map_iff in C. destruct C as (y & Ey & Hy). apply Hx.
        rewrite (number_inj x y); auto; [apply V; left; reflexivity|apply V; right; exact Hy].
      + apply IH. intros y Hy. apply V. right. exact Hy.
    - intros blot. rewrite in_map_iff. unfold duplicated, at_blot. split.
      + intros (x & <- & Hx). destruct (V x Hx) as [Vx C]. destruct (number_back x Vx) as (A & B & L). rewrite A, B. split; [exact L|exact C].
      + intros [L C]. destruct (pos_number blot L) as [Vx Ex]. exists (pos_of blot). split; [exact Ex|].
        eapply Permutation_in; [symmetry; exact P|]. apply in_all_dups. split; [exact Vx|exact C].
    - intros e He. destruct (entries_in em out F e He) as (x & Hx & Eb & _ & Ek). rewrite Ek.
      destruct (V x Hx) as [Vx _]. destruct (number_back x Vx) as (A & B & _). unfold at_blot. rewrite Eb. fold (number x). rewrite A, B. reflexivity.
  Qed.
  Theorem next_sorted q out : queried grow ix fuel good q out ->
    StronglySorted (fun e e' => (length (docs_keys (be_docs e')) <= length (docs_keys (be_docs e)))%nat) out.
  Proof.
    intros R. destruct (queried_spec q out R) as (h & em & Q & _ & F). pose proof (qi_sorted _ _ _ Q) as S. clear Q R.
    assert (L : forall x e, entry_is x e -> length (docs_keys (be_docs e)) = cnt x).
    { intros x e (_ & _ & E). rewrite E, map_length. reflexivity. }
    induction F as [|x e l l' E F IH]; [constructor|]. inversion S as [|? ? S1 F1]; subst. constructor; [apply IH, S1|].
    rewrite (L x e E). clear IH S S1. induction F as [|y e' l l' E' F IH]; [constructor|]. inversion F1; subst. constructor; [|auto]. rewrite (L y e' E'). assumption.
  Qed.
  (** Returned so far, whether or not the end is reached. *)
  Theorem next_sound q out : queried grow ix fuel good q out ->
    NoDup (map be_blot out) /\ forall e, In e out -> duplicated n content (be_blot e) /\ docs_keys (be_docs e) = map place (at_blot n content (be_blot e)).
  Proof.
    intros R. destruct (queried_spec q out R) as (h & em & Q & _ & F). rewrite (entries_blots em out F).
    assert (P : Permutation (em ++ todo h) all_dups) by apply (qi_perm _ _ _ Q).
    assert (V : forall x, In x em -> valid x /\ (2 <= cnt x)%nat).
    { intros x Hx. apply in_all_dups. eapply Permutation_in; [exact P|]. apply in_or_app. left. exact Hx. }
    assert (N1 : NoDup em).
    { assert (X : NoDup (em ++ todo h)) by (eapply Permutation_NoDup; [symmetry; exact P|apply all_dups_nodup]).
      clear -X. induction em as [|x l IH]; [constructor|]. inversion X as [|? ? A B]; subst. constructor; [|auto].
      intros C. apply A. apply in_or_app. auto. }
    split.
    - clear F P Q. induction N1 as [|x l Hx N1 IH]; cbn [map]; [constructor|]. constructor.
      + intros C. apply in_map_iff in C. destruct C as (y & Ey & Hy). apply Hx.
        rewrite (number_inj x y); auto; [apply V; left; reflexivity|apply V; right; exact Hy].
      + apply IH. intros y Hy. apply V. right. exact Hy.
    - intros e He. destruct (entries_in em out F e He) as (x & Hx & Eb & _ & Ek). rewrite Ek.
      destruct (V x Hx) as [Vx C]. destruct (number_back x Vx) as (A & B & L). unfold duplicated, at_blot. rewrite Eb. fold (number x). rewrite A, B.
      split; [split; [exact L|exact C]|reflexivity].
  Qed.
  (** Once a call has found the end, it takes 2^32 rounds to find it again. *)
  Theorem end_is_slow q out dst k r eof : queried grow ix fuel good q out -> good dst ->
    query_next grow ix fuel k q dst = Ok (r, eof) -> (r_n r < length dst)%nat ->
    forall dst' k', good dst' -> dst' <> [] -> N.of_nat k' < p32 -> query_next grow ix fuel k' (r_q r) dst' = Loop.
  Proof.
    intros R G E Ln dst' k' G' D' L. destruct (queried_spec q out R) as (h & em & Q & Hn & _).
    destruct (call_spec q h em k dst r eof Q Hn G E) as (h' & new & Q' & Hn' & _ & Lr & _ & D).
    destruct D as [[_ X]|(T & Nl & _)]; [lia|].
    apply next_loop_spins with (h := h') (em := em ++ new); cbn [r_q r_n r_dst]; auto.
    - apply good_rooms, G'.
    - destruct dst'; [congruence|cbn [length]; lia].
    - unfold gap, p32 in *. rewrite Nl. pose proof (io_max _ _ _ _ I). replace (N.of_nat n + 4294967296 - 1 - N.of_nat n) with 4294967295 by lia.
      rewrite N.mod_small by lia. lia.
  Qed.
  Theorem end_again q out dst k r eof : queried grow ix fuel good q out -> good dst ->
    query_next grow ix fuel k q dst = Ok (r, eof) -> (r_n r < length dst)%nat ->
    forall dst', good dst' -> dst' <> [] -> exists k' r', query_next grow ix fuel k' (r_q r) dst' = Ok (r', true) /\ r_n r' = 0%nat.
  Proof.
    intros R G E Ln dst' G' D'. destruct (queried_spec q out R) as (h & em & Q & Hn & _).
    destruct (call_spec q h em k dst r eof Q Hn G E) as (h' & new & Q' & Hn' & _ & Lr & _ & D).
    destruct D as [[_ X]|(T & Nl & _)]; [lia|].
    destruct (next_returns (r_q r) (out ++ firstn (r_n r) (r_dst r)) dst') as (k' & r' & eof' & E'); auto.
    { exact (queried_next _ _ _ _ q out dst k r eof R G E). }
    exists k', r'. rewrite E'. destruct (call_spec _ _ _ _ _ _ _ Q' Hn' G' E') as (h2 & new2 & Q2 & _ & _ & L2 & Ld & D2).
    assert (N0 : new2 = []).
    { pose proof (qi_perm _ _ _ Q') as P1. pose proof (qi_perm _ _ _ Q2) as P2. rewrite T, app_nil_r in P1.
      rewrite <- P1 in P2. apply Permutation_length in P2. rewrite !app_length in P2. destruct new2; [reflexivity|cbn [length] in P2; lia]. }
    rewrite N0 in L2. cbn [length] in L2. rewrite L2 in *. split; [|reflexivity].
    destruct D2 as [[_ X]|(_ & _ & ->)]; [|reflexivity]. destruct dst'; [congruence|cbn [length] in X; lia].
  Qed.
  (** The whole iteration comes to an end. *)
  Theorem listing_exists dst : good dst -> dst <> [] -> forall q out, queried grow ix fuel good q out -> exists rest, listing grow ix fuel good q rest.
  Proof.
    intros G D q out R. destruct (queried_spec q out R) as (h & em & Q & Hn & _).
    remember (length all_dups - length em)%nat as m eqn:Em. revert q out h em R Q Hn Em.
    induction m as [m IH] using lt_wf_ind. intros q out h em R Q Hn Em.
    destruct (next_returns q out dst R G) as (k & r & eof & E). destruct eof.
    - exists []. eapply listing_end; eauto.
    - destruct (call_spec _ _ _ _ _ _ _ Q Hn G E) as (h2 & new & Q2 & Hn2 & _ & L2 & Ld & D2).
      assert (Lt : (length new <> 0)%nat).
      { destruct D2 as [[_ X]|(_ & _ & X)]; [destruct dst; [congruence|cbn [length] in X; lia]|]. symmetry in X. apply Nat.eqb_neq in X. lia. }
      assert (Lm : (length all_dups - length (em ++ new) < m)%nat).
      { pose proof (Permutation_length (qi_perm _ _ _ Q2)) as X. fold all_dups in X. rewrite !app_length in *. lia. }
      assert (R2 : queried grow ix fuel good (r_q r) (out ++ firstn (r_n r) (r_dst r))) by exact (queried_next _ _ _ _ q out dst k r false R G E).
      destruct (IH _ Lm _ _ _ _ R2 Q2 Hn2 eq_refl) as (rest & Hr).
      exists (firstn (r_n r) (r_dst r) ++ rest). eapply listing_more; eauto.
  Qed.
  (** With one kind of destination, for calls that are as narrow as one likes. *)
  Lemma queried_wider (P Q : list blot_entry -> Prop) q out : (forall d, P d -> Q d) -> queried grow ix fuel P q out -> queried grow ix fuel Q q out.
  Proof. intros HH. induction 1; [constructor|]. eapply queried_next; eauto. Qed.
  Theorem calls_end (P : list blot_entry -> Prop) : (forall d, P d -> good d) -> forall dst, P dst -> dst <> [] ->
    forall q out, queried grow ix fuel P q out ->
    exists q' out' k r, queried grow ix fuel P q' (out ++ out') /\ query_next grow ix fuel k q' dst = Ok (r, true).
  Proof.
    intros PG dst Pd D q out R0. assert (G : good dst) by auto.
    destruct (queried_spec q out (queried_wider _ _ _ _ PG R0)) as (h & em & Q & Hn & _).
    remember (length all_dups - length em)%nat as m eqn:Em. revert q out h em R0 Q Hn Em.
    induction m as [m IH] using lt_wf_ind. intros q out h em R0 Q Hn Em. pose proof (queried_wider _ _ _ _ PG R0) as R.
    destruct (next_returns q out dst R G) as (k & r & eof & E). destruct eof.
    - exists q, [], k, r. rewrite app_nil_r. auto.
    - destruct (call_spec _ _ _ _ _ _ _ Q Hn G E) as (h2 & new & Q2 & Hn2 & _ & L2 & Ld & D2).
      assert (Lt : (length new <> 0)%nat).
      { destruct D2 as [[_ X]|(_ & _ & X)]; [destruct dst; [congruence|cbn [length] in X; lia]|]. symmetry in X. apply Nat.eqb_neq in X. lia. }
      assert (Lm : (length all_dups - length (em ++ new) < m)%nat).
      { pose proof (Permutation_length (qi_perm _ _ _ Q2)) as X. fold all_dups in X. rewrite !app_length in *. lia. }
      assert (R2 : queried grow ix fuel P (r_q r) (out ++ firstn (r_n r) (r_dst r))) by exact (queried_next _ _ _ _ q out dst k r false R0 Pd E).
      destruct (IH _ Lm _ _ _ _ R2 Q2 Hn2 eq_refl) as (q' & out' & k' & r' & A & B).
      exists q', (firstn (r_n r) (r_dst r) ++ out'), k', r'. rewrite app_assoc. auto.
  Qed.
  Theorem end_reached_in (P : list blot_entry -> Prop) : (forall d, P d -> good d) -> P [MkEntry 0 None] ->
    exists q out dst k r, queried grow ix fuel P q out /\ P dst /\ query_next grow ix fuel k q dst = Ok (r, true) /\ (r_n r < length dst)%nat.
  Proof.
    intros PG G.
    destruct (calls_end P PG [MkEntry 0 None] G ltac:(discriminate) _ _ (queried_start grow ix fuel P)) as (q & out & k & r & R & E).
    exists q, ([] ++ out), [MkEntry 0 None], k, r. split; [exact R|]. split; [exact G|]. split; [exact E|].
    assert (R' : queried grow ix fuel good q ([] ++ out)) by (clear -R PG; revert R; generalize ([] ++ out); intros o R; induction R; [apply queried_start|eapply queried_next; [eassumption|apply PG; eassumption|eassumption]]).
    destruct (queried_spec _ _ R') as (h & em & Q & Hn & _).
    destruct (call_spec _ _ _ _ _ _ _ Q Hn (PG _ G) E) as (h2 & new & Q2 & Hn2 & _ & L2 & Ld & [[X _]|(_ & _ & X)]); [discriminate|].
    symmetry in X. apply Nat.eqb_eq in X. rewrite X. cbn. lia.
  Qed.
  Theorem end_reached : exists q out dst k r, queried grow ix fuel good q out /\ good dst /\
    query_next grow ix fuel k q dst = Ok (r, true) /\ (r_n r < length dst)%nat.
  Proof. apply end_reached_in; [auto|]. constructor; [exact Logic.I|constructor]. Qed.
  Theorem listing_spec q out rest : queried grow ix fuel good q out -> listing grow ix fuel good q rest ->
    exists q' dst k r, queried grow ix fuel good q' (out ++ rest) /\ good dst /\ query_next grow ix fuel k q' dst = Ok (r, true).
  Proof.
    intros R L. revert out R. induction L as [q dst k r G E|q dst k r out' G E _ IH]; intros out R.
    - exists q, dst, k, r. rewrite app_nil_r. auto.
    - destruct (IH (out ++ firstn (r_n r) (r_dst r))) as (q' & dst' & k' & r' & A & B & C); [exact (queried_next _ _ _ _ q out dst k r false R G E)|].
      exists q', dst', k', r'. rewrite app_assoc. auto.
  Qed.
End N.
