From Coq Require Import Sorting.Sorted Permutation.
From Verif Require Import Model.Base Model.Index Model.Query Model.Extract Spec.Reading Spec.Querying Proof.Tactics Proof.QueryP Proof.QueryP2.
Local Open Scope N_scope.

Lemma next_loop_mono grow ix fuel k : forall k' r x, (k <= k')%nat -> next_loop grow ix fuel k r = x -> x <> Loop -> next_loop grow ix fuel k' r = x.
Proof.
  induction k as [|k IH]; intros [|k'] r x L H Nl; cbn [next_loop] in *; try (exfalso; congruence); [lia|].
  destruct (next_iter grow ix fuel r) as [[r1 v]| | |]; try exact H. cbn [bind] in *.
  destruct v; [apply IH; [lia|exact H|exact Nl]|exact H|exact H].
Qed.
Lemma extract_loop_O grow ix js T fuel k q b : extract_loop grow ix js T fuel k 0 q b = Loop.
Proof. reflexivity. Qed.
Lemma extract_loop_S grow ix js T fuel k calls q b : extract_loop grow ix js T fuel k (S calls) q b =
  match query_next grow ix fuel k q [MkEntry b None] with
  | Err EOF => Ok []
  | Err EOther => Err EOther
  | Panic => Panic
  | Loop => Loop
  | Ok (r, eof) =>
      if (eof : bool) then if (r_n r =? 0)%nat then Ok [] else Panic
      else if (r_n r =? 0)%nat then Err EOther
      else match r_dst r with
           | e :: _ =>
               if (Z.of_nat (docs_len (be_docs e)) <? T)%Z then Ok []
               else do! out <- extract_loop grow ix js T fuel k calls (r_q r) (be_blot e);
                    Ok (if js || (1 <? docs_len (be_docs e))%nat then e :: out else out)
           | [] => Panic
           end
  end.
Proof.
  unfold extract_loop. cbn [extract_steps]. destruct (query_next grow ix fuel k q [MkEntry b None]) as [[r eof]|[]| |]; try reflexivity.
  destruct eof; [destruct (_ =? 0)%nat; reflexivity|]. destruct (_ =? 0)%nat; [reflexivity|]. destruct (r_dst r) as [|e t]; [reflexivity|].
  destruct (_ <? T)%Z; [reflexivity|]. destruct (extract_steps _ _ _ _ _ _ _ _ _) as [out [|x| |]]; reflexivity.
Qed.
Lemma extract_mono grow ix js T fuel k calls : forall k' calls' q b out, (k <= k')%nat -> (calls <= calls')%nat ->
  extract_loop grow ix js T fuel k calls q b = Ok out -> extract_loop grow ix js T fuel k' calls' q b = Ok out.
Proof.
  induction calls as [|calls IH]; intros k' [|calls'] q b out Lk Lc H; rewrite ?extract_loop_O, ?extract_loop_S in *; try discriminate H; [lia|].
  destruct (query_next grow ix fuel k q [MkEntry b None]) as [[r eof]|[]| |] eqn:E; try discriminate H;
    unfold query_next in *; rewrite (next_loop_mono _ _ _ _ _ _ _ Lk E) by discriminate; [|exact H].
  destruct eof; [exact H|]. destruct (r_n r =? 0)%nat; [exact H|]. destruct (r_dst r) as [|e t]; [exact H|].
  destruct (Z.of_nat (docs_len (be_docs e)) <? T)%Z; [exact H|].
  destruct (extract_loop grow ix js T fuel k calls (r_q r) (be_blot e)) as [o| | |] eqn:E2; try discriminate H.
  rewrite (IH k' calls' _ _ _ Lk ltac:(lia) E2). exact H.
Qed.

Lemma Forall2_len {A B} (P : A -> B -> Prop) l l' : Forall2 P l l' -> length l = length l'.
Proof. induction 1; cbn [length]; congruence. Qed.

Section E.
  Variable grow : nat -> nat.
  Variables (ix : index) (place : N -> bytes * N * N) (n : nat) (content : nat -> nat -> list N).
  Hypothesis I : index_ok ix n content place.
  Variable fuel : nat.
  Hypothesis Hf : forall s b, (s < n)%nat -> (b < num_slots)%nat -> (length (content s b) < fuel)%nat.
  Notation good := (Forall (roomy n content)).
  Notation count e := (length (docs_keys (be_docs e))).

  Lemma one_good b : good [MkEntry b None].
  Proof. constructor; [exact Logic.I|constructor]. Qed.
  (** One call with one unlimited entry. *)
  Lemma one_call q out k b r eof : queried grow ix fuel good q out -> query_next grow ix fuel k q [MkEntry b None] = Ok (r, eof) ->
    (eof = true /\ r_n r = 0%nat) \/
    (eof = false /\ r_n r = 1%nat /\ exists e, r_dst r = [e] /\ queried grow ix fuel good (r_q r) (out ++ [e]) /\
       docs_len (be_docs e) = count e /\ (2 <= count e)%nat).
  Proof.
    intros R E. pose proof (queried_next _ _ _ _ q out _ k r eof R (one_good b) E) as R2.
    destruct (queried_spec grow ix place n content I fuel Hf q out R) as (h & em & Q & Hn & _).
    destruct (call_spec grow ix place n content I fuel Hf q h em k _ r eof Q Hn (one_good b) E) as (h' & new & _ & _ & F & Ln & Ld & D).
    cbn [length] in Ld. destruct (r_dst r) as [|e [|? ?]] eqn:Er; try discriminate Ld.
    assert (r_n r = 0 \/ r_n r = 1)%nat as [Z|Z].
    { apply Forall2_len in F. rewrite firstn_length in F. cbn [length] in F. lia. }
    - left. split; [|exact Z]. destruct D as [[_ X]|(_ & _ & X)]; [cbn [length] in X; lia|]. rewrite Z in X. exact X.
    - right. rewrite Z in *. cbn [firstn] in *. split; [destruct D as [[X _]|(_ & _ & X)]; exact X|]. split; [reflexivity|].
      exists e. split; [reflexivity|]. split; [exact R2|].
      destruct (next_sound grow ix place n content I fuel Hf (r_q r) _ R2) as [_ S].
      specialize (S e ltac:(apply in_or_app; right; left; reflexivity)). destruct S as [[_ D2] Ke].
      inversion F as [|x y l1 l2 Fe F2]; subst. destruct Fe as (_ & Fl).
      assert (count e = length (at_blot n content (be_blot e))) as Ec by (rewrite Ke, map_length; reflexivity).
      split; [|lia]. unfold filled in Fl. destruct Fl as (W & Fl). unfold docs_keys. rewrite map_length. unfold docs_wf in W. unfold docs_len, docs_list.
      destruct (be_docs e) as [[m back]|]; [|reflexivity]. rewrite firstn_length. lia.
  Qed.

  (** What a run prints. *)
  Definition printed (T : Z) (out : list blot_entry) : Prop :=
    NoDup (map be_blot out) /\
    (forall blot, In blot (map be_blot out) <-> duplicated n content blot /\ (T <= Z.of_nat (length (at_blot n content blot)))%Z) /\
    (forall e, In e out -> docs_keys (be_docs e) = map place (at_blot n content (be_blot e))) /\
    StronglySorted (fun e e' => (count e' <= count e)%nat) out.

  Lemma sorted_after {A} (P : A -> A -> Prop) l1 x l2 : StronglySorted P (l1 ++ x :: l2) -> forall y, In y l2 -> P x y.
  Proof.
    induction l1 as [|z l1 IH]; cbn [app]; intros S y Hy; inversion S as [|? ? S1 F1]; subst; [|eauto].
    rewrite Forall_forall in F1. auto.
  Qed.
  Lemma sorted_front {A} (P : A -> A -> Prop) l1 l2 : StronglySorted P (l1 ++ l2) -> StronglySorted P l1.
  Proof.
    induction l1 as [|z l1 IH]; cbn [app]; intros S; [constructor|]. inversion S as [|? ? S1 F1]; subst. constructor; [auto|].
    apply Forall_app in F1. apply F1.
  Qed.
  Lemma NoDup_front {A} (l1 l2 : list A) : NoDup (l1 ++ l2) -> NoDup l1.
  Proof. induction l1 as [|x l IH]; cbn [app]; intros H; [constructor|]. inversion H as [|? ? N1 N2]; subst. constructor; [|auto]. intros C. apply N1, in_or_app. auto. Qed.

  Lemma stop_eof T q out k b r : queried grow ix fuel good q out -> Forall (fun e => (T <= Z.of_nat (count e))%Z) out ->
    query_next grow ix fuel k q [MkEntry b None] = Ok (r, true) -> printed T out.
  Proof.
    intros R A E. destruct (next_complete grow ix place n content I fuel Hf q out k _ r R (one_good b) E) as (Nd & C & Dk).
    split; [exact Nd|]. split; [|split; [exact Dk|exact (next_sorted grow ix place n content I fuel Hf q out R)]].
    intros blot. rewrite C. split; [|tauto]. intros D. split; [exact D|]. apply C in D. apply in_map_iff in D. destruct D as (e & <- & Hin).
    rewrite Forall_forall in A. specialize (A e Hin). rewrite (Dk e Hin), map_length in A. exact A.
  Qed.
  Lemma stop_below T q out e : queried grow ix fuel good q (out ++ [e]) -> Forall (fun e => (T <= Z.of_nat (count e))%Z) out ->
    (Z.of_nat (count e) < T)%Z -> printed T out.
  Proof.
    intros R A L.
    destruct (calls_end grow ix place n content I fuel Hf good (fun d H => H) [MkEntry 0 None] (one_good 0) ltac:(discriminate) q _ R)
      as (q' & out' & k' & r' & R' & E').
    pose proof (next_complete grow ix place n content I fuel Hf q' _ k' _ r' R' (one_good 0) E') as (Nd & C & Dk).
    pose proof (next_sorted grow ix place n content I fuel Hf q' _ R') as S.
    rewrite <- app_assoc in *. cbn [app] in *.
    assert (Dk1 : forall x, In x out -> docs_keys (be_docs x) = map place (at_blot n content (be_blot x))).
    { intros x Hx. apply Dk. apply in_or_app. left. exact Hx. }
    split; [rewrite map_app in Nd; exact (NoDup_front _ _ Nd)|]. split; [|split; [exact Dk1|exact (sorted_front _ _ _ S)]].
    intros blot. split.
    - intros H. split; [apply C; rewrite map_app; apply in_or_app; left; exact H|].
      apply in_map_iff in H. destruct H as (x & <- & Hx). rewrite Forall_forall in A. specialize (A x Hx).
      rewrite (Dk1 x Hx), map_length in A. exact A.
    - intros [D Ge]. apply C in D. apply in_map_iff in D. destruct D as (x & <- & Hx). pose proof (Dk x Hx) as Kx.
      apply in_app_or in Hx. destruct Hx as [Hx|Hx]; [apply in_map, Hx|]. exfalso.
      assert (count x <= count e)%nat as Le.
      { destruct Hx as [->|Hx]; [lia|]. exact (sorted_after _ _ _ _ S x Hx). }
      rewrite Kx, map_length in Le. lia.
  Qed.


  Lemma dup_bound l : NoDup (map be_blot l) -> (forall e, In e l -> be_blot e < N.of_nat n * 65536) -> (length l <= N.to_nat (N.of_nat n * 65536))%nat.
  Proof.
    intros Nd B. rewrite <- (map_length be_blot). set (b := N.of_nat n * 65536) in *. clearbody b.
    rewrite <- (seq_length (N.to_nat b) 0), <- (map_length N.of_nat). apply NoDup_incl_length; [exact Nd|].
    intros x Hx. apply in_map_iff in Hx. destruct Hx as (e & <- & He). specialize (B e He). apply in_map_iff. exists (N.to_nat (be_blot e)).
    split; [apply N2Nat.id|]. apply in_seq. lia.
  Qed.
  Lemma extract_runs js T : forall q b out, queried grow ix fuel good q out -> Forall (fun e => (T <= Z.of_nat (count e))%Z) out ->
    exists k calls more, extract_loop grow ix js T fuel k calls q b = Ok more /\ printed T (out ++ more).
  Proof.
    intros q b out. remember (S (N.to_nat (N.of_nat n * 65536)) - length out)%nat as m eqn:Em. revert q b out Em.
    induction m as [m IH] using lt_wf_ind. intros q b out Em R A.
    destruct (next_returns grow ix place n content I fuel Hf q out [MkEntry b None] R (one_good b)) as (k1 & r & eof & E).
    destruct (one_call q out k1 b r eof R E) as [[-> Z]|(-> & Z & e & Er & R2 & Le & L2)].
    - exists k1, 1%nat, []. rewrite extract_loop_S, E. rewrite Z. cbn [Nat.eqb]. split; [reflexivity|].
      rewrite app_nil_r. exact (stop_eof T q out k1 b r R A E).
    - destruct (Z.ltb_spec (Z.of_nat (docs_len (be_docs e))) T) as [Lt|Ge].
      + exists k1, 1%nat, []. rewrite extract_loop_S, E. rewrite Z. cbn [Nat.eqb]. rewrite Er.
        destruct (Z.ltb_spec (Z.of_nat (docs_len (be_docs e))) T) as [_|X]; [|lia]. split; [reflexivity|]. rewrite app_nil_r.
        apply (stop_below T (r_q r) out e R2 A). lia.
      + destruct (next_sound grow ix place n content I fuel Hf (r_q r) _ R2) as [Nd Sd].
        pose proof (dup_bound _ Nd (fun x Hx => proj1 (proj1 (Sd x Hx)))) as Bd. rewrite app_length in Bd. cbn [length] in Bd.
        destruct (IH (S (N.to_nat (N.of_nat n * 65536)) - length (out ++ [e]))%nat ltac:(rewrite app_length; cbn [length]; lia) (r_q r) (be_blot e) (out ++ [e]) eq_refl R2)
          as (k2 & calls & more & E2 & P).
        { apply Forall_app. split; [exact A|]. constructor; [lia|constructor]. }
        exists (max k1 k2), (S calls), (e :: more). rewrite extract_loop_S. unfold query_next in *.
        rewrite (next_loop_mono _ _ _ _ (max k1 k2) _ _ (Nat.le_max_l k1 k2) E) by discriminate. rewrite Z. cbn [Nat.eqb]. rewrite Er.
        destruct (Z.ltb_spec (Z.of_nat (docs_len (be_docs e))) T) as [X|_]; [lia|].
        rewrite (extract_mono _ _ _ _ _ _ _ (max k1 k2) calls _ _ _ (Nat.le_max_r k1 k2) (le_n calls) E2). cbn [bind].
        assert ((1 <? docs_len (be_docs e))%nat = true) as -> by (apply Nat.ltb_lt; lia). rewrite orb_true_r.
        split; [reflexivity|]. rewrite <- app_assoc in P. exact P.
  Qed.
  Theorem extract_prints js T : exists k calls out, extract grow ix js T fuel k calls = Ok out /\ printed T out.
  Proof. exact (extract_runs js T _ 0 [] (queried_start grow ix fuel good) (Forall_nil _)). Qed.
End E.

(** Fewer rounds or calls than needed: no result. *)
Lemma next_loop_any grow ix fuel k k' r x : next_loop grow ix fuel k r = x -> x <> Loop ->
  next_loop grow ix fuel k' r = Loop \/ next_loop grow ix fuel k' r = x.
Proof.
  intros H Nl. destruct (Nat.le_ge_cases k' k) as [L|L]; [|right; exact (next_loop_mono _ _ _ _ _ _ _ L H Nl)].
  destruct (next_loop grow ix fuel k' r) eqn:E; [right|right|right|left; reflexivity];
    rewrite <- H; symmetry; apply (next_loop_mono _ _ _ _ _ _ _ L E); discriminate.
Qed.
Lemma extract_any grow ix js T fuel k calls : forall k' calls' q b out,
  extract_loop grow ix js T fuel k calls q b = Ok out ->
  extract_loop grow ix js T fuel k' calls' q b = Loop \/ extract_loop grow ix js T fuel k' calls' q b = Ok out.
Proof.
  induction calls as [|calls IH]; intros k' [|calls'] q b out H; rewrite ?extract_loop_O, ?extract_loop_S in *; try discriminate H; [left; reflexivity|].
  destruct (query_next grow ix fuel k q [MkEntry b None]) as [[r eof]|[]| |] eqn:E; try discriminate H; unfold query_next in *;
    (destruct (next_loop_any _ _ _ _ k' _ _ E ltac:(discriminate)) as [->| ->]; [left; reflexivity|]); [|right; exact H].
  destruct eof; [right; exact H|]. destruct (r_n r =? 0)%nat; [right; exact H|]. destruct (r_dst r) as [|e t]; [right; exact H|].
  destruct (Z.of_nat (docs_len (be_docs e)) <? T)%Z; [right; exact H|].
  destruct (extract_loop grow ix js T fuel k calls (r_q r) (be_blot e)) as [o| | |] eqn:E2; try discriminate H.
  destruct (IH k' calls' _ _ _ E2) as [->| ->]; [left; reflexivity|]. right. exact H.
Qed.
