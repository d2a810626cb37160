(** Several goroutines in dmd.Adder.Add. *)
From Coq Require Import Lia.
From Verif Require Import Model.Base Model.Dmd Model.AddRace.
From Verif Require Import Proof.Tactics Proof.DmdP Proof.CrashP2.
Local Open Scope N_scope.

(** The slice is within its array. *)
Definition mem_ok (m : mem) : Prop := (m_ptr m < length (m_heap m))%nat /\ (m_len m <= length (nth (m_ptr m) (m_heap m) []))%nat.

Section Race.
  Variable grow : nat -> nat.
  Notation add_step := (add_step grow).
  Notation race := (race grow).

  Lemma race_app s1 : forall s2 m cs, race (s1 ++ s2) m cs = let '(m1, cs1) := race s1 m cs in race s2 m1 cs1.
  Proof.
    induction s1 as [|i s1 IH]; intros s2 m cs; cbn [app AddRace.race]; [reflexivity|].
    destruct (nth_error cs i) as [c|]; [|apply IH]. destruct (add_step m c) as [m' c']. apply IH.
  Qed.

  (** One goroutine alone. *)
  Fixpoint alone (k : nat) (m : mem) (c : pc) : mem * pc :=
    match k with O => (m, c) | S k => let '(m', c') := add_step m c in alone k m' c' end.

  Lemma race_alone k : forall i m cs c, nth_error cs i = Some c ->
    race (repeat i k) m cs = let '(m', c') := alone k m c in (m', upd i c' cs).
  Proof.
    induction k as [|k IH]; intros i m cs c E; cbn [repeat AddRace.race alone].
    - f_equal. symmetry. clear -E. revert i E. induction cs as [|a cs IH]; intros [|i] E; cbn in *; try discriminate; [congruence|]. f_equal. auto.
    - rewrite E. destruct (add_step m c) as [m' c'].
      assert (Li : (i < length cs)%nat) by (apply nth_error_Some; congruence).
      rewrite (IH i m' (upd i c' cs) c' (nth_error_upd_eq _ _ _ Li)). destruct (alone k m' c') as [m2 c2]. f_equal.
      clear. revert i. induction cs as [|a cs IH]; intros [|i]; cbn; try reflexivity. f_equal. auto.
  Qed.

  Lemma alone_add a : forall b m c, alone (a + b) m c = let '(m', c') := alone a m c in alone b m' c'.
  Proof. induction a as [|a IH]; intros b m c; cbn [Nat.add alone]; [reflexivity|]. destruct (add_step m c) as [m' c']. apply IH. Qed.
  Lemma alone_done k : forall m id, alone k m (PDone id) = (m, PDone id).
  Proof. induction k as [|k IH]; intros; cbn [alone AddRace.add_step]; [reflexivity|apply IH]. Qed.

  Lemma file_append_app f a b : file_append (file_append f a) b = file_append f (a ++ b).
  Proof. destruct f; cbn [file_append]; [rewrite app_assoc|]; reflexivity. Qed.

  Lemma skip_cons {A} (l : list A) : forall i x, nth_error l i = Some x -> skipn i l = x :: skipn (S i) l.
  Proof. induction l as [|a l IH]; intros [|i] x E; cbn in *; try discriminate; [congruence|]. apply IH, E. Qed.

  Lemma alone_flush d r : forall m i, mem_ok m -> (i + r = m_len m)%nat ->
    alone r m (PFlush d (m_len m) i) =
      (set_file (match r with O => m_file m | _ => file_append (m_file m) (concat (map enc_fields (sub i (m_len m) (nth (m_ptr m) (m_heap m) [])))) end) m, PFlush d (m_len m) (m_len m)).
  Proof.
    induction r as [|r IH]; intros m i O E.
    - cbn [alone]. replace i with (m_len m) by lia. destruct m; reflexivity.
    - cbn [alone AddRace.add_step]. destruct (Nat.ltb_spec i (m_len m)) as [_|X]; [|lia].
      set (arr := nth (m_ptr m) (m_heap m) []). set (w := enc_fields (nth i arr zero_fields)).
      pose proof (IH (set_file (file_append (m_file m) w) m) (S i)) as IH'. cbn [m_len set_file m_ptr m_heap m_file m_flushed m_rate] in IH'.
      rewrite IH'; [|exact O|lia]. fold arr. unfold set_file at 1. cbn [m_len m_ptr m_heap m_file m_flushed m_rate].
      assert (Es : sub i (m_len m) arr = nth i arr zero_fields :: sub (S i) (m_len m) arr).
      { unfold sub. replace (m_len m - i)%nat with (S (m_len m - S i)) by lia. destruct O as [_ O]. fold arr in O.
        assert (Li : (i < length arr)%nat) by lia. destruct (nth_error arr i) as [x|] eqn:Ex; [|apply nth_error_None in Ex; lia].
        rewrite (nth_error_nth arr i zero_fields Ex). rewrite (skip_cons arr i x Ex). reflexivity. }
      rewrite Es. cbn [map concat]. fold w. f_equal. unfold set_file. f_equal. destruct r as [|r].
      + replace (S i) with (m_len m) by lia. unfold sub. rewrite Nat.sub_diag. cbn [firstn map concat]. rewrite app_nil_r. reflexivity.
      + rewrite file_append_app. reflexivity.
  Qed.

  (** The steps of a call that does not flush, and the end of every call. *)
  Lemma alone_tail d m : mem_ok m -> exists m', alone 5 m (PLen d) = (m', PDone (add32 (u32 (N.of_nat (m_len m))) (m_flushed m))) /\ mem_ok m' /\
    adder_of m' = (MkAdder (m_flushed m) (m_rate m) (firstn (m_len m) (nth (m_ptr m) (m_heap m) []) ++ [d]), m_file m).
  Proof.
    intros [O1 O2]. cbn [alone AddRace.add_step]. set (arr := nth (m_ptr m) (m_heap m) []) in *.
    destruct (Nat.ltb_spec (m_len m) (length arr)) as [L|L]; cbn [m_heap m_ptr m_len m_flushed m_rate m_file].
    - eexists. split; [reflexivity|]. unfold mem_ok, adder_of. cbn [m_heap m_ptr m_len m_flushed m_rate m_file].
      assert (En : nth (m_ptr m) (upd (m_ptr m) (upd (m_len m) d arr) (m_heap m)) [] = upd (m_len m) d arr).
      { apply nth_error_nth. apply nth_error_upd_eq. exact O1. }
      rewrite En, !upd_length. split; [split; [exact O1|lia]|]. do 2 f_equal.
      clear - L. revert L. generalize (m_len m) as n. induction arr as [|a arr IH]; intros [|n] L; cbn in *; try lia; [reflexivity|]. f_equal. apply IH. lia.
    - eexists. split; [reflexivity|]. unfold mem_ok, adder_of. cbn [m_heap m_ptr m_len m_flushed m_rate m_file].
      assert (En : nth (length (m_heap m)) (m_heap m ++ [firstn (m_len m) arr ++ d :: repeat zero_fields (grow (m_len m))]) [] = firstn (m_len m) arr ++ d :: repeat zero_fields (grow (m_len m))).
      { rewrite app_nth2 by lia. rewrite Nat.sub_diag. reflexivity. }
      assert (Ll : length (firstn (m_len m) arr) = m_len m) by (rewrite firstn_length; lia).
      rewrite En, !app_length, Ll. cbn [length]. split; [split; lia|]. do 2 f_equal.
      replace (S (m_len m)) with (length (firstn (m_len m) arr) + 1)%nat at 1 by lia. rewrite firstn_app_2. reflexivity.
  Qed.

  (** A call that runs alone does what [adder_add] says. *)
  Lemma alone_add_spec d m : mem_ok m -> exists m' id, (forall k, (m_len m + 9 <= k)%nat -> alone k m (PEnter d) = (m', PDone id)) /\ mem_ok m' /\
    adder_add (adder_of m) d = (adder_of m', id).
  Proof.
    intros O. unfold adder_add, adder_of at 1. cbn [a_buf a_rate a_flushed].
    assert (Lb : nlen (firstn (m_len m) (nth (m_ptr m) (m_heap m) [])) = N.of_nat (m_len m)) by (unfold nlen; rewrite firstn_length; destruct O; lia).
    rewrite Lb. destruct (u32 (N.of_nat (m_len m)) =? m_rate m) eqn:Er.
    - set (m1 := MkMem (m_heap m) (m_ptr m) 0 (add32 (m_flushed m) (u32 (N.of_nat (m_len m)))) (m_rate m)
        (file_append (m_file m) (concat (map enc_fields (firstn (m_len m) (nth (m_ptr m) (m_heap m) [])))))).
      assert (O1 : mem_ok m1) by (unfold mem_ok, m1; cbn; destruct O; lia).
      destruct (alone_tail d m1 O1) as (m' & E & O' & A). exists m', (add32 (u32 (N.of_nat (m_len m1))) (m_flushed m1)). split; [|split; [exact O'|]].
      + intros k Lk. replace k with (1 + (m_len m + (3 + (5 + (k - 9 - m_len m)))))%nat by lia.
        rewrite alone_add. cbn [alone AddRace.add_step]. rewrite Er. rewrite alone_add.
        pose proof (alone_flush d (m_len m) (set_file (file_append (m_file m) []) m) 0 O eq_refl) as Ef. cbn [m_len set_file m_ptr m_heap m_file m_flushed m_rate] in Ef. rewrite Ef.
        rewrite (alone_add 3).
        match goal with |- context [alone 3 ?mm ?c] => assert (E3 : alone 3 mm c = (m1, PLen d)) end.
        { cbn [alone AddRace.add_step]. rewrite Nat.ltb_irrefl. cbn [alone AddRace.add_step m_len set_file m_ptr m_heap m_file m_flushed m_rate].
          f_equal. unfold m1. f_equal. unfold sub. rewrite Nat.sub_0_r. cbn [skipn].
          destruct (m_len m) as [|l] eqn:El; [cbn [firstn map concat]; reflexivity|]. rewrite file_append_app. reflexivity. }
        rewrite E3, alone_add, E. apply alone_done.
      + unfold adder_flush. cbn [a_buf a_flushed a_rate]. rewrite Lb, A. unfold m1. cbn [m_len m_flushed m_rate m_file m_heap m_ptr firstn app a_buf a_flushed a_rate nlen length]. reflexivity.
    - destruct (alone_tail d m O) as (m' & E & O' & A). exists m', (add32 (u32 (N.of_nat (m_len m))) (m_flushed m)). split; [|split; [exact O'|]].
      + intros k Lk. replace k with (1 + (5 + (k - 6)))%nat by lia. rewrite alone_add. cbn [alone AddRace.add_step]. rewrite Er. rewrite alone_add, E. apply alone_done.
      + cbn [a_buf a_flushed a_rate]. rewrite Lb, A. reflexivity.
  Qed.

  Lemma adder_len m : mem_ok m -> m_len m = length (a_buf (fst (adder_of m))).
  Proof. intros [_ O]. unfold adder_of. cbn [fst a_buf]. rewrite firstn_length. lia. Qed.

  Lemma alone_len d m m' id : mem_ok m -> mem_ok m' -> adder_add (adder_of m) d = (adder_of m', id) -> (m_len m' <= S (m_len m))%nat.
  Proof.
    intros O O' E. pose proof (adder_len m O) as E1. pose proof (adder_len m' O') as E2. apply (f_equal (fun x => length (a_buf (fst (fst x))))) in E. cbn [fst] in E.
    rewrite E2, E1, <- E. unfold adder_add. destruct (adder_of m) as [a f]. cbn [fst].
    destruct (u32 (nlen (a_buf a)) =? a_rate a); cbn [adder_flush fst a_buf]; rewrite app_length; cbn [length]; lia.
  Qed.

  (** Calls that do not overlap, in any order. *)
  Lemma in_turn (doc : nat -> fields) order : forall m cs K, mem_ok m -> NoDup order ->
    (forall i, In i order -> nth_error cs i = Some (PEnter (doc i))) -> (m_len m + length order + 9 <= K)%nat ->
    exists m' cs' ids, race (concat (map (fun i => repeat i K) order)) m cs = (m', cs') /\ mem_ok m' /\
      adder_adds (adder_of m) (map doc order) = (adder_of m', ids) /\
      Forall2 (fun i id => nth_error cs' i = Some (PDone id)) order ids /\
      forall j, ~ In j order -> nth_error cs' j = nth_error cs j.
  Proof.
    induction order as [|i order IH]; intros m cs K O Nd Hp HK.
    - exists m, cs, []. repeat (split; [first [reflexivity|assumption|constructor]|]). reflexivity.
    - destruct (alone_add_spec (doc i) m O) as (m1 & id & Ea & O1 & A). inv Nd.
      pose proof (alone_len _ _ _ _ O O1 A) as Ll.
      destruct (IH m1 (upd i (PDone id) cs) K O1) as (m' & cs' & ids & E & O' & A' & F & Ho); [assumption| |cbn [length] in HK; lia|].
      { intros j Hj. rewrite nth_error_upd_ne by (intros ->; contradiction). apply Hp. right. exact Hj. }
      exists m', cs', (id :: ids). cbn [map concat]. rewrite race_app, (race_alone K i m cs _ (Hp i (or_introl eq_refl))), Ea by (cbn [length] in HK; lia).
      split; [exact E|]. split; [exact O'|]. split; [cbn [adder_adds]; rewrite A, A'; reflexivity|].
      assert (Hi : nth_error cs i <> None) by (rewrite (Hp i (or_introl eq_refl)); discriminate).
      split.
      + constructor; [|exact F]. rewrite (Ho i) by assumption. apply nth_error_upd_eq. apply nth_error_Some. exact Hi.
      + intros j Hj. rewrite Ho by (intros X; apply Hj; right; exact X). apply nth_error_upd_ne. intros ->. apply Hj. left. reflexivity.
  Qed.

  (** Two calls that take the length one after the other. *)
  Lemma race_same m d1 d2 : mem_ok m -> (m_len m < length (nth (m_ptr m) (m_heap m) []))%nat -> u32 (N.of_nat (m_len m)) <> m_rate m ->
    exists sched m' id, race sched m [PEnter d1; PEnter d2] = (m', [PDone id; PDone id]) /\
      adder_add (adder_of m) d2 = (adder_of m', id).
  Proof.
    intros O L R. apply N.eqb_neq in R. 
    exists [0; 0; 0; 1; 1; 1; 0; 1; 0; 1; 0; 1]%nat. unfold adder_add, adder_of at 1. cbn [a_buf a_rate a_flushed].
    assert (Lb : nlen (firstn (m_len m) (nth (m_ptr m) (m_heap m) [])) = N.of_nat (m_len m)) by (unfold nlen; rewrite firstn_length; destruct O; lia).
    rewrite !Lb, R. cbn [a_buf a_rate a_flushed]. rewrite !Lb.
    pose proof O as [O1 O2]. set (arr := nth (m_ptr m) (m_heap m) []) in *.
    assert (En : forall d a, nth (m_ptr m) (upd (m_ptr m) (upd (m_len m) d a) (m_heap m)) [] = upd (m_len m) d a).
    { intros d a. apply nth_error_nth. apply nth_error_upd_eq. exact O1. }
    cbn [AddRace.race nth_error AddRace.add_step upd]. rewrite R.
    cbn [AddRace.race nth_error AddRace.add_step upd m_heap m_ptr m_len m_flushed m_rate m_file]. rewrite R.
    cbn [AddRace.race nth_error AddRace.add_step upd m_heap m_ptr m_len m_flushed m_rate m_file]. fold arr.
    assert ((m_len m <? length arr)%nat = true) as -> by (apply Nat.ltb_lt; exact L).
    cbn [AddRace.race nth_error AddRace.add_step upd m_heap m_ptr m_len m_flushed m_rate m_file]. rewrite En.
    rewrite upd_length. assert ((m_len m <? length arr)%nat = true) as -> by (apply Nat.ltb_lt; exact L).
    cbn [AddRace.race nth_error AddRace.add_step upd m_heap m_ptr m_len m_flushed m_rate m_file].
    eexists _, _. split; [reflexivity|]. unfold adder_of. cbn [m_heap m_ptr m_len m_flushed m_rate m_file].
    do 3 f_equal.
    assert (En2 : forall (d : fields) (a : list fields) (h : list (list fields)), (m_ptr m < length h)%nat -> nth (m_ptr m) (upd (m_ptr m) (upd (m_len m) d a) h) [] = upd (m_len m) d a).
    { intros d a h Hh. apply nth_error_nth. apply nth_error_upd_eq. exact Hh. }
    rewrite En2 by (rewrite upd_length; exact O1).
    clear - L. revert L. generalize (m_len m) as n. induction arr as [|a arr IH]; intros [|n] L; cbn in *; try lia; [reflexivity|]. f_equal. apply IH. lia.
  Qed.

  (** Two calls that find the buffer full. *)
  Lemma race_panic m d1 d2 : mem_ok m -> (0 < m_len m)%nat -> u32 (N.of_nat (m_len m)) = m_rate m ->
    exists sched m' c, race sched m [PEnter d1; PEnter d2] = (m', [PPanic; c]).
  Proof.
    intros O L R. apply N.eqb_eq in R. set (m1 := set_file (file_append (file_append (m_file m) []) []) m).
    exists ([0; 1] ++ repeat 1 (m_len m) ++ [1; 1; 1; 0])%nat.
    rewrite race_app. cbn [AddRace.race nth_error AddRace.add_step upd]. rewrite R. cbn [nth_error upd AddRace.add_step m_len set_file m_rate]. rewrite R.
    cbn [upd]. rewrite race_app. erewrite race_alone by reflexivity.
    match goal with |- context [alone (m_len m) ?mm _] => pose proof (alone_flush d2 (m_len m) mm 0 O eq_refl) as Ef end.
    cbn [m_len set_file m_ptr m_heap m_file m_flushed m_rate] in Ef |- *. unfold set_file in Ef |- *. cbn [m_len m_ptr m_heap m_file m_flushed m_rate] in Ef |- *. rewrite Ef.
    cbn [upd AddRace.race nth_error AddRace.add_step]. rewrite Nat.ltb_irrefl.
    cbn [upd AddRace.race nth_error AddRace.add_step m_len m_ptr m_heap m_file m_flushed m_rate].
    destruct (Nat.ltb_spec 0 (m_len m)) as [_|X]; [|lia]. eexists _, _. reflexivity.
  Qed.

  (** Whatever the schedule, the file only grows, record by record. *)
  Lemma step_file m c : exists e, m_file (fst (add_step m c)) = m_file m \/ m_file (fst (add_step m c)) = file_append (m_file m) e.
  Proof.
    destruct c as [d|d k i|d|d|d|d n|d n p l|n p l|n|id|]; cbn [AddRace.add_step].
    - exists []. destruct (_ =? _); cbn [fst set_file m_file]; auto.
    - destruct (i <? k)%nat; [destruct (i <? m_len m)%nat|]; cbn [fst set_file m_file]; exists (enc_fields (nth i (nth (m_ptr m) (m_heap m) []) zero_fields)); auto.
    - exists []. auto.
    - exists []. auto.
    - exists []. auto.
    - exists []. auto.
    - cbv zeta. exists []. destruct (_ <? _)%nat; auto.
    - exists []. auto.
    - exists []. auto.
    - exists []. auto.
    - exists []. auto.
  Qed.
  Lemma race_longer old sched : forall m cs, longer old (m_file m) -> longer old (m_file (fst (race sched m cs))).
  Proof.
    induction sched as [|i sched IH]; intros m cs Lg; cbn [AddRace.race]; [exact Lg|].
    destruct (nth_error cs i) as [c|]; [|apply IH, Lg]. destruct (step_file m c) as (e & E). destruct (add_step m c) as [m' c']. cbn [fst] in E.
    apply IH. destruct E as [->| ->]; [exact Lg|apply longer_append, Lg].
  Qed.
End Race.
