(** Proofs about what is opened and closed. *)
From Coq Require Import Lia.
From Verif Require Import Model.Base Model.Handles Spec.Handles.
Local Open Scope Z_scope.

Definition ind (g h : held) : Z := if held_eq g h then 1 else 0.
Lemma balance_app h a b : balance h (a ++ b) = balance h a + balance h b.
Proof. induction a as [|[g|g] a IH]; cbn [app balance]; [reflexivity| |]; rewrite IH; lia. Qed.

(** The balance if there was no error; in any case. *)
Definition net_ok (a : act) (s : held -> Z) : Prop := forall o e o', a o = (e, o', true) -> forall h, balance h e = s h.
Definition net_any (a : act) (s : held -> Z) : Prop := forall o e o' ok, a o = (e, o', ok) -> forall h, balance h e = s h.
Definition zero (h : held) : Z := 0.
Definition add (s t : held -> Z) (h : held) : Z := s h + t h.
Definition opp (s : held -> Z) (h : held) : Z := - s h.
Fixpoint sum (s : nat -> held -> Z) (i n : nat) (h : held) : Z := match n with O => 0 | S n => s i h + sum s (S i) n h end.

Lemma any_ok a s : net_any a s -> net_ok a s.
Proof. intros A o e o' E. eapply A, E. Qed.
Lemma ok_eq a s t : (forall h, s h = t h) -> net_ok a s -> net_ok a t.
Proof. intros X A o e o' E h. rewrite <- X. eapply A, E. Qed.
Lemma any_eq a s t : (forall h, s h = t h) -> net_any a s -> net_any a t.
Proof. intros X A o e o' ok E h. rewrite <- X. eapply A, E. Qed.
Lemma opening_ok g : net_ok (opening g) (ind g).
Proof. intros o e o' E h. unfold opening in E. destruct (next o) as [[|] o1]; inversion E; subst. cbn [balance]. unfold ind. lia. Qed.
Lemma closing_any g : net_any (closing g) (opp (ind g)).
Proof. intros o e o' ok E h. unfold closing in E. destruct (next o) as [ok1 o1]; inversion E; subst. cbn [balance]. unfold opp, ind. lia. Qed.
Lemma working_any : net_any working zero.
Proof. intros o e o' ok E h. unfold working in E. destruct (next o) as [ok1 o1]; inversion E; subst. reflexivity. Qed.
Lemma starting_ok g : net_ok (starting g) (ind g).
Proof. intros o e o' E h. inversion E; subst. cbn [balance]. unfold ind. lia. Qed.
Lemma ending_any g : net_any (ending g) (opp (ind g)).
Proof. intros o e o' ok E h. inversion E; subst. cbn [balance]. unfold opp, ind. lia. Qed.
Lemma fine_any : net_any fine zero.
Proof. intros o e o' ok E h. inversion E; subst. reflexivity. Qed.
Lemma andthen_ok a b s t : net_ok a s -> net_ok b t -> net_ok (a ;; b) (add s t).
Proof.
  intros A B o e o' E h. unfold andthen in E. destruct (a o) as [[e1 o1] [|]] eqn:E1; [|discriminate]. destruct (b o1) as [[e2 o2] ok] eqn:E2.
  inversion E; subst. rewrite balance_app. unfold add. f_equal; [eapply A, E1|eapply B, E2].
Qed.
Lemma andthen_zero a b s : net_any a s -> net_any b zero -> net_any (a ;; b) s.
Proof.
  intros A B o e o' ok E h. unfold andthen in E. destruct (a o) as [[e1 o1] [|]] eqn:E1.
  - destruct (b o1) as [[e2 o2] ok2] eqn:E2. inversion E; subst. rewrite balance_app, (A _ _ _ _ E1), (B _ _ _ _ E2). unfold zero. lia.
  - inversion E; subst. eapply A, E1.
Qed.
Lemma deferring_ok d a s t : net_ok a s -> net_any d t -> net_ok (deferring d a) (add s t).
Proof.
  intros A D o e o' E h. unfold deferring in E. destruct (a o) as [[e1 o1] ok1] eqn:E1. destruct (d o1) as [[e2 o2] ok2] eqn:E2.
  inversion E; subst. rewrite balance_app. unfold add. f_equal; [eapply A, E1|eapply D, E2].
Qed.
Lemma deferring_any d a s t : net_any a s -> net_any d t -> net_any (deferring d a) (add s t).
Proof.
  intros A D o e o' ok E h. unfold deferring in E. destruct (a o) as [[e1 o1] ok1] eqn:E1. destruct (d o1) as [[e2 o2] ok2] eqn:E2.
  inversion E; subst. rewrite balance_app. unfold add. f_equal; [eapply A, E1|eapply D, E2].
Qed.
Lemma both_any a b s t : net_any a s -> net_any b t -> net_any (both a b) (add s t).
Proof.
  intros A D o e o' ok E h. unfold both in E. destruct (a o) as [[e1 o1] ok1] eqn:E1. destruct (b o1) as [[e2 o2] ok2] eqn:E2.
  inversion E; subst. rewrite balance_app. unfold add. f_equal; [eapply A, E1|eapply D, E2].
Qed.
Lemma holding_ok g a s : net_ok a s -> net_ok (holding g a) s.
Proof.
  intros A. eapply ok_eq; [|apply (andthen_ok _ _ _ _ (opening_ok g) (deferring_ok _ _ _ _ A (closing_any g)))].
  intros h. unfold add, opp. lia.
Qed.
Lemma holding_any g a : net_any a zero -> net_any (holding g a) zero.
Proof.
  intros A o e o' ok E h. unfold holding, andthen in E. unfold opening at 1 in E. destruct (next o) as [[|] o1].
  - destruct (deferring (closing g) a o1) as [[e2 o2] ok2] eqn:E2. inversion E; subst.
    cbn [app balance]. rewrite (deferring_any _ _ _ _ A (closing_any g) _ _ _ _ E2). unfold add, opp, zero, ind. lia.
  - inversion E; subst. reflexivity.
Qed.
Lemma in_turn_ok f s : (forall i, net_ok (f i) (s i)) -> forall n i, net_ok (in_turn f i n) (sum s i n).
Proof. intros F. induction n as [|n IH]; intros i; cbn [in_turn]; [exact (any_ok _ _ fine_any)|]. exact (andthen_ok _ _ _ _ (F i) (IH (S i))). Qed.
Lemma in_any_case_any f s : (forall i, net_any (f i) (s i)) -> forall n i, net_any (in_any_case f i n) (sum s i n).
Proof. intros F. induction n as [|n IH]; intros i; cbn [in_any_case]; [exact fine_any|]. exact (both_any _ _ _ _ (F i) (IH (S i))). Qed.
Lemma sum_opp s : forall n i h, sum (fun j => opp (s j)) i n h = - sum s i n h.
Proof. induction n as [|n IH]; intros i h; cbn [sum]; [reflexivity|]. rewrite IH. unfold opp. lia. Qed.
Lemma sum_add s t : forall n i h, sum (fun j => add (s j) (t j)) i n h = sum s i n h + sum t i n h.
Proof. induction n as [|n IH]; intros i h; cbn [sum]; [reflexivity|]. rewrite IH. unfold add. lia. Qed.

Notation posts := (sum (fun i => ind (HPosts i))).
Notation serves := (sum (fun i => ind (HServe i))).
Notation workers := (sum (fun i => ind (HWorker i))).
Lemma posts_at : forall n i h, posts i n h = match h with HPosts j => if ((i <=? j) && (j <? i + n))%nat then 1 else 0 | _ => 0 end.
Proof.
  induction n as [|n IH]; intros i h; cbn [sum].
  - destruct h as [| | | | | j | |]; try reflexivity. destruct (Nat.leb_spec i j), (Nat.ltb_spec j (i + 0)); try reflexivity; lia.
  - rewrite IH. unfold ind. destruct (held_eq (HPosts i) h) as [<-|X].
    + rewrite Nat.leb_refl. destruct (Nat.leb_spec (S i) i), (Nat.ltb_spec i (i + S n)); try lia. reflexivity.
    + destruct h as [| | | | | j | |]; try reflexivity. assert (i <> j) by congruence.
      destruct (Nat.leb_spec (S i) j), (Nat.leb_spec i j), (Nat.ltb_spec j (S i + n)), (Nat.ltb_spec j (i + S n)); try lia; reflexivity.
Qed.

Lemma lock_close_any : net_any lock_close (opp (ind HLock)).
Proof. eapply any_eq; [|exact (both_any _ _ _ _ working_any (closing_any HLock))]. intros h. unfold add, zero. lia. Qed.
Lemma open_index_ok n : net_ok (open_index_h n) (fun h => ind HLock h + ind HDmd h + posts 0 n h).
Proof.
  assert (I : forall i, net_ok (shard_init_h i) (ind (HPosts i))).
  { intros i. eapply ok_eq; [|exact (andthen_ok _ _ _ _ (any_ok _ _ (holding_any (HTable i) _ working_any)) (opening_ok (HPosts i)))]. intros h. reflexivity. }
  unfold open_index_h, read_config_h. eapply ok_eq; [|apply andthen_ok; [apply opening_ok|apply andthen_ok; [exact (any_ok _ _ working_any)|
    apply andthen_ok; [exact (any_ok _ _ (holding_any HConfig _ working_any))|apply andthen_ok; [apply opening_ok|
    apply holding_ok, andthen_ok; [exact (any_ok _ _ working_any)|apply in_turn_ok, I]]]]]].
  intros h. unfold add, zero. lia.
Qed.
Lemma close_index_any n : net_any (close_index_h n) (fun h => - (ind HLock h + ind HDmd h + posts 0 n h)).
Proof.
  unfold close_index_h. eapply any_eq; [|apply deferring_any; [apply both_any; [apply closing_any|apply in_any_case_any; intros i; apply closing_any]|apply lock_close_any]].
  intros h. unfold add. rewrite sum_opp. unfold opp. lia.
Qed.
Theorem index_balanced n o e o1 e' o2 ok : open_index_h n o = (e, o1, true) -> close_index_h n o1 = (e', o2, ok) -> nothing_held (e ++ e').
Proof. intros A B h. rewrite balance_app, (open_index_ok n _ _ _ A), (close_index_any n _ _ _ _ B). lia. Qed.

Definition opened (n w : nat) (h : held) : Z := ind HLock h + posts 0 n h + serves 0 n h + workers 0 w h.
Lemma start_shatter_ok w : net_ok (start_shatter_h w) (workers 0 w).
Proof.
  unfold start_shatter_h. eapply ok_eq; [|apply andthen_ok; [exact (any_ok _ _ working_any)|apply in_turn_ok; intros i; apply starting_ok]].
  intros h. unfold add, zero. lia.
Qed.
Lemma create_ok n w : net_ok (create_h n w) (opened n w).
Proof.
  assert (I : forall i, net_ok (init_create_h i ;; starting (HServe i)) (add (ind (HPosts i)) (ind (HServe i)))).
  { intros i. apply andthen_ok; [|apply starting_ok]. apply holding_ok. eapply ok_eq; [|apply andthen_ok; [exact (any_ok _ _ working_any)|apply opening_ok]]. intros h. reflexivity. }
  unfold create_h. eapply ok_eq; [|apply andthen_ok; [apply opening_ok|apply andthen_ok; [exact (any_ok _ _ working_any)|
    apply andthen_ok; [exact (any_ok _ _ working_any)|apply andthen_ok; [exact (any_ok _ _ working_any)|
    apply andthen_ok; [apply in_turn_ok, I|apply start_shatter_ok]]]]]].
  intros h. unfold add at 1 2 3 4 5, zero, opened. rewrite sum_add. lia.
Qed.
Lemma open_ok n w : net_ok (open_h n w) (opened n w).
Proof.
  assert (I : forall i, net_ok (init_append_h i ;; starting (HServe i)) (add (ind (HPosts i)) (ind (HServe i)))).
  { intros i. apply andthen_ok; [|apply starting_ok]. eapply ok_eq; [|apply andthen_ok; [exact (any_ok _ _ (holding_any (HTable i) _ working_any))|
      apply andthen_ok; [apply opening_ok|exact (any_ok _ _ working_any)]]]. intros h. unfold add, zero. lia. }
  unfold open_h, read_config_h. eapply ok_eq; [|apply andthen_ok; [exact (any_ok _ _ (holding_any HConfig _ working_any))|
    apply andthen_ok; [apply opening_ok|apply andthen_ok; [exact (any_ok _ _ working_any)|
    apply andthen_ok; [exact (any_ok _ _ working_any)|apply andthen_ok; [exact (any_ok _ _ (holding_any HNames _ working_any))|
    apply andthen_ok; [exact (any_ok _ _ working_any)|apply andthen_ok; [apply in_turn_ok, I|apply start_shatter_ok]]]]]]]].
  intros h. unfold add at 1 2 3 4 5 6 7, zero, opened. rewrite sum_add. lia.
Qed.
Lemma add_any flush : net_any (add_h flush) zero.
Proof. destruct flush; [exact (holding_any HDmd _ working_any)|exact fine_any]. Qed.
Lemma adds_any l : net_any (adds_h l) zero.
Proof. induction l as [|f l IH]; cbn [adds_h]; [exact fine_any|]. eapply any_eq; [|exact (both_any _ _ _ _ (add_any f) IH)]. intros h. reflexivity. Qed.
Lemma shard_close_any i : net_any (shard_close_h i) (opp (ind (HPosts i))).
Proof.
  unfold shard_close_h. apply andthen_zero; [|exact (holding_any (HTable i) _ working_any)].
  eapply any_eq; [|exact (deferring_any _ _ _ _ working_any (closing_any (HPosts i)))]. intros h. reflexivity.
Qed.
Lemma ends_all f : forall n i o, in_turn (fun j => ending (f j)) i n o = (map (fun j => Give (f j)) (seq i n), o, true).
Proof. induction n as [|n IH]; intros i o; cbn [in_turn seq map]; [reflexivity|]. unfold andthen, ending. rewrite IH. reflexivity. Qed.
Lemma ended f h : forall n i, balance h (map (fun j => Give (f j)) (seq i n)) = - sum (fun j => ind (f j)) i n h.
Proof. induction n as [|n IH]; intros i; cbn [seq map balance sum]; [reflexivity|]. rewrite IH. unfold ind. lia. Qed.

(** Close gives everything back, or, with an error, everything but the posting files. *)
Lemma close_cases n w flush o e o' ok : close_h n w flush o = (e, o', ok) ->
  (forall h, balance h e = - opened n w h) \/ (ok = false /\ forall h, balance h e = - opened n w h + posts 0 n h).
Proof.
  intros E. unfold close_h in E. unfold deferring at 1 in E.
  destruct ((in_turn (fun i => ending (HWorker i)) 0 w ;; in_turn (fun i => ending (HServe i)) 0 n ;; holding HConfig working ;; holding HNames working ;; add_h flush ;; in_any_case shard_close_h 0 n) o)
    as [[e1 o1] ok1] eqn:E1. destruct (lock_close o1) as [[e2 o2] ok2] eqn:E2. inversion E; subst e o' ok; clear E.
  assert (X : (forall h, balance h e1 = - (posts 0 n h + serves 0 n h + workers 0 w h)) \/ ok1 = false /\ forall h, balance h e1 = - (serves 0 n h + workers 0 w h)).
  { unfold andthen at 1 in E1. rewrite ends_all in E1. unfold andthen at 1 in E1. rewrite ends_all in E1.
    destruct ((holding HConfig working ;; holding HNames working ;; add_h flush ;; in_any_case shard_close_h 0 n) o) as [[e3 o3] ok3] eqn:E3.
    inversion E1; subst e1 o1 ok1; clear E1.
    assert (Y : (forall h, balance h e3 = - posts 0 n h) \/ ok3 = false /\ forall h, balance h e3 = 0).
    { clear E2. unfold andthen at 1 in E3. destruct (holding HConfig working o) as [[e4 o4] ok4] eqn:E4.
      pose proof (holding_any HConfig _ working_any _ _ _ _ E4) as B4. destruct ok4; [|inversion E3; subst; right; auto].
      unfold andthen at 1 in E3. destruct (holding HNames working o4) as [[e5 o5] ok5] eqn:E5.
      pose proof (holding_any HNames _ working_any _ _ _ _ E5) as B5.
      destruct ok5; [|inversion E3; subst; right; split; [reflexivity|intros h; rewrite balance_app, B4, B5; reflexivity]].
      unfold andthen at 1 in E3. destruct (add_h flush o5) as [[e6 o6] ok6] eqn:E6. pose proof (add_any flush _ _ _ _ E6) as B6.
      destruct ok6; [|inversion E3; subst; right; split; [reflexivity|intros h; rewrite !balance_app, B4, B5, B6; reflexivity]].
      destruct (in_any_case shard_close_h 0 n o6) as [[e7 o7] ok7] eqn:E7.
      pose proof (in_any_case_any _ _ shard_close_any _ _ _ _ _ _ E7) as B7. inversion E3; subst. left. intros h.
      rewrite !balance_app, B4, B5, B6, B7, sum_opp. unfold zero. lia. }
    destruct Y as [Y|[-> Y]]; [left|right; split; [reflexivity|]]; intros h; rewrite !balance_app, !ended, Y; lia. }
  destruct X as [X|[-> X]]; [left|right; split; [reflexivity|]]; intros h; rewrite balance_app, X, (lock_close_any _ _ _ _ E2); unfold opp, opened; lia.
Qed.
Theorem indexer_balanced n w a o e o1 l e1 o2 ok1 flush e2 o3 ok : (a = create_h n w \/ a = open_h n w) ->
  a o = (e, o1, true) -> adds_h l o1 = (e1, o2, ok1) -> close_h n w flush o2 = (e2, o3, ok) ->
  nothing_held (e ++ e1 ++ e2) \/
  (ok = false /\ forall h, balance h (e ++ e1 ++ e2) = match h with HPosts j => if (j <? n)%nat then 1 else 0 | _ => 0 end).
Proof.
  intros Ha E E1 E2. assert (B : forall h, balance h e = opened n w h) by (destruct Ha as [->| ->]; [eapply create_ok|eapply open_ok]; exact E).
  destruct (close_cases _ _ _ _ _ _ _ E2) as [X|[-> X]]; [left|right; split; [reflexivity|]]; intros h;
    rewrite !balance_app, B, (adds_any l _ _ _ _ E1), X; unfold zero; [lia|]. rewrite posts_at. cbn [Nat.leb andb].
  replace (0 + n)%nat with n by lia. destruct h; lia.
Qed.

(** What is never given back while opening. *)
Definition lasting (h : held) : bool := match h with HConfig | HNames | HTable _ => false | _ => true end.
Definition keeps (a : act) : Prop := forall o e o' ok h, a o = (e, o', ok) -> lasting h = true -> ~ In (Give h) e.
Lemma keeps_nogive (a : act) : (forall o, match fst (fst (a o)) with [] => True | [Take _] => True | _ => False end) -> keeps a.
Proof.
  intros X o e o' ok h E L Hin. specialize (X o). rewrite E in X. cbn [fst] in X. destruct e as [|[g|g] [|]]; try (destruct Hin; fail); try contradiction.
  destruct Hin as [A|[]]. discriminate.
Qed.
Lemma keeps_opening g : keeps (opening g).
Proof. apply keeps_nogive. intros o. unfold opening. destruct (next o) as [[|] ?]; exact I. Qed.
Lemma keeps_starting g : keeps (starting g).
Proof. apply keeps_nogive. intros o. exact I. Qed.
Lemma keeps_working : keeps working.
Proof. apply keeps_nogive. intros o. unfold working. destruct (next o) as [[|] ?]; exact I. Qed.
Lemma keeps_fine : keeps fine.
Proof. apply keeps_nogive. intros o. exact I. Qed.
Lemma keeps_closing g : lasting g = false -> keeps (closing g).
Proof.
  intros X o e o' ok h E L Hin. unfold closing in E. destruct (next o) as [ok1 o1]. inversion E; subst. destruct Hin as [A|[]]. injection A as ->. congruence.
Qed.
Lemma keeps_andthen a b : keeps a -> keeps b -> keeps (a ;; b).
Proof.
  intros A B o e o' ok h E L Hin. unfold andthen in E. destruct (a o) as [[e1 o1] [|]] eqn:E1.
  - destruct (b o1) as [[e2 o2] ok2] eqn:E2. inversion E; subst. apply in_app_or in Hin. destruct Hin as [Hin|Hin]; [exact (A _ _ _ _ _ E1 L Hin)|exact (B _ _ _ _ _ E2 L Hin)].
  - inversion E; subst. exact (A _ _ _ _ _ E1 L Hin).
Qed.
Lemma keeps_deferring a b : keeps a -> keeps b -> keeps (deferring b a).
Proof.
  intros A B o e o' ok h E L Hin. unfold deferring in E. destruct (a o) as [[e1 o1] ok1] eqn:E1. destruct (b o1) as [[e2 o2] ok2] eqn:E2.
  inversion E; subst. apply in_app_or in Hin. destruct Hin as [Hin|Hin]; [exact (A _ _ _ _ _ E1 L Hin)|exact (B _ _ _ _ _ E2 L Hin)].
Qed.
Lemma keeps_holding g a : lasting g = false -> keeps a -> keeps (holding g a).
Proof. intros X A. apply keeps_andthen; [apply keeps_opening|apply keeps_deferring; [exact A|apply keeps_closing, X]]. Qed.
Lemma keeps_in_turn f : (forall i, keeps (f i)) -> forall n i, keeps (in_turn f i n).
Proof. intros F. induction n as [|n IH]; intros i; cbn [in_turn]; [apply keeps_fine|apply keeps_andthen; [apply F|apply IH]]. Qed.
Ltac kept := repeat first [apply keeps_holding; [reflexivity|] | apply keeps_in_turn; intros ?i | apply keeps_andthen | apply keeps_opening | apply keeps_working | apply keeps_starting | apply keeps_fine].
Lemma keeps_open_index n : keeps (open_index_h n).
Proof. unfold open_index_h, read_config_h, shard_init_h. kept. Qed.
Lemma keeps_create n w : keeps (create_h n w).
Proof. unfold create_h, init_create_h, start_shatter_h. kept. Qed.
Lemma keeps_open n w : keeps (open_h n w).
Proof. unfold open_h, read_config_h, init_append_h, start_shatter_h. kept. Qed.
Lemma no_give h l : ~ In (Give h) l -> 0 <= balance h l.
Proof.
  induction l as [|[g|g] l IH]; cbn [balance In]; intros N; [lia| |]; pose proof (IH ltac:(tauto)); destruct (held_eq g h); try lia. subst. exfalso. tauto.
Qed.
Lemma taken_held h l : In (Take h) l -> ~ In (Give h) l -> still_held l h.
Proof.
  unfold still_held. induction l as [|[g|g] l IH]; cbn [balance In]; intros Hin N; [destruct Hin| |]; pose proof (no_give h l ltac:(tauto)).
  - destruct (held_eq g h) as [->|X]; [lia|]. destruct Hin as [Hin|Hin]; [congruence|]. specialize (IH Hin ltac:(tauto)). lia.
  - destruct (held_eq g h) as [->|X]; [exfalso; tauto|]. destruct Hin as [Hin|Hin]; [discriminate|]. specialize (IH Hin ltac:(tauto)). lia.
Qed.
