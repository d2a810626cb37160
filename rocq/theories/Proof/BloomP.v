From Verif Require Import Model.Base Model.Bloom Proof.Tactics.
Local Open Scope N_scope.

Definition bits_of (b : fnv32) : N := u32 (u32_of_int (fl_mbytes b) * 8).
Fixpoint pos_from (b : fnv32) (hh : N) (n : nat) (i : N) : list N :=
  match n with
  | O => []
  | S n => u32 (N.lxor hh (u32 (i + 97)) * fnv32_prime) mod bits_of b :: pos_from b hh n (i + 1)
  end.
Definition positions (b : fnv32) (v : N) : list N := pos_from b (fnv32_hash v) (N.to_nat (u32_of_int (fl_k b))) 0.
Definition bit (d : bytes) (p : N) : Prop := exists x, nth_error d (N.to_nat (p / 8)) = Some x /\ N.testbit x (p mod 8) = true.

Lemma mask m : m < 8 -> u8 (N.shiftl 1 m) = 2 ^ m.
Proof. intros H. assert (m = 0 \/ m = 1 \/ m = 2 \/ m = 3 \/ m = 4 \/ m = 5 \/ m = 6 \/ m = 7) as D by lia.
  destruct D as [->|[->|[->|[->|[->|[->|[->| ->]]]]]]]; reflexivity. Qed.
Lemma land_pow x m : (N.land x (2 ^ m) =? 0) = negb (N.testbit x m).
Proof.
  destruct (N.testbit x m) eqn:T; cbn [negb].
  - apply N.eqb_neq. intros E. assert (N.testbit (N.land x (2 ^ m)) m = true) as B by (rewrite N.land_spec, T, N.pow2_bits_true; reflexivity).
    rewrite E, N.bits_0 in B. discriminate B.
  - apply N.eqb_eq. apply N.bits_inj. intros i. rewrite N.land_spec, N.bits_0, N.pow2_bits_eqb. destruct (m =? i) eqn:E; [|apply andb_false_r].
    apply N.eqb_eq in E. subst i. rewrite T. reflexivity.
Qed.
Lemma has_fn_true d p d' : has_fn d p = Ok (d', true) -> bit d p.
Proof.
  unfold has_fn, bit. destruct (nth_error d (N.to_nat (p / 8))) as [x|]; [|discriminate]. intros H. injection H as _ H.
  rewrite mask, land_pow, negb_involutive in H by lia. eauto.
Qed.
Lemma bit_has_fn d p : bit d p -> has_fn d p = Ok (d, true).
Proof. intros (x & E & T). unfold has_fn. rewrite E, mask, land_pow, T by lia. reflexivity. Qed.
Lemma has_fn_d d p d' r : has_fn d p = Ok (d', r) -> d' = d.
Proof. unfold has_fn. destruct (nth_error d (N.to_nat (p / 8))); [|discriminate]. intros H. injection H. auto. Qed.

Lemma clamp_ok h n m : clamp h n = Ok m -> u32 (n * 8) <> 0 /\ m = h mod u32 (n * 8).
Proof. unfold clamp. destruct (u32 (n * 8) =? 0) eqn:E; [discriminate|]. intros H. injection H as <-. split; [lia|reflexivity]. Qed.
Lemma clamp_fine h n : u32 (n * 8) <> 0 -> clamp h n = Ok (h mod u32 (n * 8)).
Proof. unfold clamp. intros H. destruct (u32 (n * 8) =? 0) eqn:E; [lia|reflexivity]. Qed.

Definition sane (b : fnv32) : Prop := u32_of_int (fl_k b) = 0 \/ bits_of b <> 0.
Lemma has_from b hh n : forall i d d', ones_from b hh has_fn n i d = Ok (d', true) -> (n = O \/ bits_of b <> 0) /\ Forall (bit d) (pos_from b hh n i).
Proof.
  induction n as [|n IH]; intros i d d' H; cbn [ones_from pos_from] in *; [split; [left; reflexivity|constructor]|].
  destruct (clamp _ _) as [m| | |] eqn:C; try discriminate H. cbn [bind] in H. apply clamp_ok in C. destruct C as [B ->].
  destruct (has_fn _ _) as [[d1 go]| | |] eqn:F; try discriminate H. cbn [bind] in H. destruct go; [|discriminate H].
  split; [right; exact B|]. pose proof (has_fn_d _ _ _ _ F). subst d1. constructor; [exact (has_fn_true _ _ _ F)|]. apply (IH _ _ _ H).
Qed.
Lemma has_back b hh n : forall i d, (n = O \/ bits_of b <> 0) -> Forall (bit d) (pos_from b hh n i) -> ones_from b hh has_fn n i d = Ok (d, true).
Proof.
  induction n as [|n IH]; intros i d S F; cbn [ones_from pos_from] in *; [reflexivity|].
  destruct S as [S|S]; [discriminate S|]. rewrite clamp_fine by exact S. cbn [bind].
  pose proof (Forall_inv F) as F1. apply Forall_inv_tail in F. rewrite bit_has_fn by exact F1. cbn [bind]. apply IH; auto.
Qed.
Lemma has_iff b d v : has b d v = Ok true <-> sane b /\ Forall (bit d) (positions b v).
Proof.
  unfold has, ones, sane, positions. split.
  - intros H. destruct (ones_from _ _ _ _ _ _) as [[d' r]| | |] eqn:E; try discriminate H. injection H as ->.
    apply has_from in E. destruct E as [S F]. split; [|exact F]. destruct S as [S|S]; [left; lia|right; exact S].
  - intros [S F]. rewrite has_back; [reflexivity| |exact F]. destruct S as [->|S]; [left; reflexivity|right; exact S].
Qed.

(** * Sets only grow *)
Definition within (d d' : bytes) : Prop := length d = length d' /\ forall i x, nth_error d i = Some x ->
  exists y, nth_error d' i = Some y /\ forall m, N.testbit x m = true -> N.testbit y m = true.
Lemma within_refl d : within d d.
Proof. split; [reflexivity|]. eauto. Qed.
Lemma within_trans d1 d2 d3 : within d1 d2 -> within d2 d3 -> within d1 d3.
Proof.
  intros [L1 H1] [L2 H2]. split; [congruence|]. intros i x E. destruct (H1 i x E) as (y & E2 & T2).
  destruct (H2 i y E2) as (z & E3 & T3). eauto.
Qed.
Lemma within_bit d d' p : within d d' -> bit d p -> bit d' p.
Proof. intros [_ H] (x & E & T). destruct (H _ _ E) as (y & Ey & Ty). exists y. auto. Qed.
Lemma within_has b d d' v : within d d' -> has b d v = Ok true -> has b d' v = Ok true.
Proof. rewrite !has_iff. intros W [S F]. split; [exact S|]. eapply Forall_impl; [|exact F]. intros p. apply within_bit, W. Qed.

Lemma upd_len {A} (l : list A) : forall i x, length (upd i x l) = length l.
Proof. induction l as [|y l IH]; intros [|i] x; cbn; auto. Qed.
Lemma upd_nth {A} (l : list A) : forall i x j, nth_error (upd i x l) j = if (j =? i)%nat then match nth_error l j with Some _ => Some x | None => None end else nth_error l j.
Proof.
  induction l as [|y l IH]; intros [|i] x [|j]; cbn [upd nth_error Nat.eqb]; try reflexivity; [destruct (j =? i)%nat; reflexivity|apply IH].
Qed.
Lemma add_fn_spec d p d' r : add_fn d p = Ok (d', r) -> r = true /\ within d d' /\ bit d' p.
Proof.
  unfold add_fn. destruct (nth_error d (N.to_nat (p / 8))) as [x|] eqn:E; [|discriminate]. intros H. injection H as <- <-.
  rewrite mask by lia. split; [reflexivity|]. split.
  - split; [rewrite upd_len; reflexivity|]. intros i y Ei. rewrite upd_nth. destruct (i =? N.to_nat (p / 8))%nat eqn:Q.
    + apply Nat.eqb_eq in Q. subst i. rewrite Ei. rewrite E in Ei. injection Ei as <-. eexists. split; [reflexivity|].
      intros m T. rewrite N.lor_spec, T. reflexivity.
    + eauto.
  - exists (N.lor x (2 ^ (p mod 8))). rewrite upd_nth, Nat.eqb_refl, E. split; [reflexivity|].
    rewrite N.lor_spec, N.pow2_bits_true. apply orb_true_r.
Qed.
Lemma add_from b hh n : forall i d d' r, ones_from b hh add_fn n i d = Ok (d', r) ->
  (n = O \/ bits_of b <> 0) /\ within d d' /\ Forall (bit d') (pos_from b hh n i).
Proof.
  induction n as [|n IH]; intros i d d' r H; cbn [ones_from pos_from] in *.
  { injection H as <- _. split; [left; reflexivity|]. split; [apply within_refl|constructor]. }
  destruct (clamp _ _) as [m| | |] eqn:C; try discriminate H. cbn [bind] in H. apply clamp_ok in C. destruct C as [B ->].
  destruct (add_fn _ _) as [[d1 go]| | |] eqn:F; try discriminate H. cbn [bind] in H. apply add_fn_spec in F. destruct F as (-> & W & T).
  destruct (IH _ _ _ _ H) as (_ & W' & F). split; [right; exact B|]. split; [eapply within_trans; eassumption|].
  constructor; [eapply within_bit; eassumption|exact F].
Qed.
Lemma add_spec b d v d' : add b d v = Ok d' -> within d d' /\ has b d' v = Ok true.
Proof.
  unfold add, ones. intros H. destruct (ones_from _ _ _ _ _ _) as [[d1 r]| | |] eqn:E; try discriminate H. injection H as ->.
  apply add_from in E. destruct E as (S & W & F). split; [exact W|]. apply has_iff. split; [|exact F].
  destruct S as [S|S]; [left; lia|right; exact S].
Qed.

(** * Adding succeeds *)
Lemma add_from_ok b hh n : forall i d, bits_of b <> 0 -> (Z.of_nat (length d) = fl_mbytes b)%Z ->
  exists d', ones_from b hh add_fn n i d = Ok (d', true).
Proof.
  induction n as [|n IH]; intros i d B L; cbn [ones_from]; [eauto|].
  rewrite clamp_fine by exact B. cbn [bind]. fold (bits_of b).
  set (h := u32 (N.lxor hh (u32 (i + 97)) * fnv32_prime)). clearbody h.
  assert (N.to_nat (h mod bits_of b / 8) < length d)%nat as Hlt.
  { pose proof (N.mod_lt h _ B) as M. assert (Z.of_N (bits_of b) <= fl_mbytes b * 8)%Z as Le.
    { clear - L. unfold bits_of, u32_of_int, u32. lia. }
    clear - M Le L. generalize dependent (h mod bits_of b). generalize dependent (bits_of b). intros. lia. }
  unfold add_fn. destruct (nth_error d (N.to_nat (h mod bits_of b / 8))) as [x|] eqn:E; [|apply nth_error_None in E; lia].
  cbn [bind]. apply IH; [exact B|]. rewrite upd_len. exact L.
Qed.
Lemma add_ok b d v : sane b -> (Z.of_nat (length d) = fl_mbytes b)%Z -> exists d', add b d v = Ok d'.
Proof.
  intros S L. unfold add, ones. destruct S as [->|S]; [exists d; reflexivity|].
  destruct (add_from_ok b (fnv32_hash v) (N.to_nat (u32_of_int (fl_k b))) 0 d S L) as [d' ->]. exists d'. reflexivity.
Qed.
Lemma sane_sizes b : (0 < fl_mbytes b < 536870912)%Z -> sane b.
Proof. intros H. right. unfold bits_of, u32_of_int, u32. lia. Qed.

(** * Unions *)
Lemma zip_lor d : forall o d', zip_set N.lor d o = Ok d' -> within d d' /\ (length o = length d -> within o d').
Proof.
  induction d as [|x d IH]; intros [|y o] d' H; cbn [zip_set] in H; try discriminate H.
  - injection H as <-. split; [apply within_refl|]. intros _. apply within_refl.
  - injection H as <-. split; [apply within_refl|]. intros L. discriminate L.
  - destruct (zip_set N.lor d o) as [r| | |] eqn:E; try discriminate H. cbn [bind] in H. injection H as <-.
    destruct (IH _ _ E) as [[L W] W2]. split.
    + split; [cbn [length]; congruence|]. intros [|i] z Hz; cbn [nth_error] in *; [|eauto]. injection Hz as <-. eexists. split; [reflexivity|].
      intros m T. rewrite N.lor_spec, T. reflexivity.
    + intros Lo. cbn [length] in Lo. injection Lo as Lo. destruct (W2 Lo) as [L3 W3].
      split; [cbn [length]; congruence|]. intros [|i] z Hz; cbn [nth_error] in *; [|eauto]. injection Hz as <-. eexists. split; [reflexivity|].
      intros m T. rewrite N.lor_spec, T. apply orb_true_r.
Qed.

(** * Histories *)
Definition recorded (b : fnv32) (t : bposts) : Prop := bp_total t <> 0 -> has b (bp_set t) (bp_post t) = Ok true.
Definition growing (o : bop) : Prop := match o with BIntersect _ => False | _ => True end.
Lemma bstep_spec b t o t' : growing o -> recorded b t -> bstep b t o = Ok t' ->
  recorded b t' /\ within (bp_set t) (bp_set t') /\
  (forall v, o = BAdd v -> has b (bp_set t') v = Ok true) /\
  (forall s, o = BUnion s -> length s = length (bp_set t) -> within s (bp_set t')).
Proof.
  intros G R H. destruct o as [v|s|s]; cbn [bstep growing] in *; [| |contradiction].
  - unfold add_post in H. destruct ((bp_post t =? v) && negb (bp_total t =? 0)) eqn:C.
    + injection H as <-. split; [exact R|]. split; [apply within_refl|]. split; [|discriminate]. intros v' E. injection E as <-.
      unfold recorded in R. assert (bp_post t = v) as <- by lia. apply R. lia.
    + destruct (add b (bp_set t) v) as [d| | |] eqn:A; try discriminate H. cbn [bind] in H. injection H as <-. cbn [bp_set].
      destruct (add_spec _ _ _ _ A) as [W T]. split; [intros _; exact T|]. split; [exact W|]. split; [|discriminate].
      intros v' E. injection E as <-. exact T.
  - unfold union in H. destruct (zip_set N.lor (bp_set t) s) as [d| | |] eqn:A; try discriminate H. cbn [bind] in H. injection H as <-.
    destruct (zip_lor _ _ _ A) as [W W2]. unfold recorded. cbn [bp_set bp_total bp_post]. split; [intros N; exact (within_has _ _ _ _ W (R N))|].
    split; [exact W|]. split; [discriminate|]. intros s' E. injection E as <-. exact W2.
Qed.
Lemma bops_spec b l : forall t t', Forall growing l -> recorded b t -> bops b t l = Ok t' ->
  recorded b t' /\ within (bp_set t) (bp_set t') /\
  (forall v, In (BAdd v) l -> has b (bp_set t') v = Ok true) /\
  (forall s, In (BUnion s) l -> length s = length (bp_set t) -> within s (bp_set t')).
Proof.
  induction l as [|o r IH]; intros t t' G R H; cbn [bops] in H.
  { injection H as <-. split; [exact R|]. split; [apply within_refl|]. split; intros ? []. }
  destruct (bstep b t o) as [t1| | |] eqn:E; try discriminate H. cbn [bind] in H.
  destruct (bstep_spec b t o t1 (Forall_inv G) R E) as (R1 & W1 & A1 & U1).
  destruct (IH t1 t' (Forall_inv_tail G) R1 H) as (R2 & W2 & A2 & U2).
  split; [exact R2|]. split; [eapply within_trans; eassumption|]. split.
  - intros v [->|I]; [|auto]. eapply within_has; [exact W2|auto].
  - intros s [->|I] L; [eapply within_trans; [|exact W2]; auto|]. apply U2; [exact I|]. destruct W1 as [<- _]. exact L.
Qed.
Lemma starts_recorded b t : bp_init b = Ok t \/ bp_ones b = Ok t -> recorded b t /\ Z.of_nat (length (bp_set t)) = fl_mbytes b.
Proof.
  unfold bp_init, bp_ones, new_set, recorded. destruct (fl_mbytes b <? 0)%Z eqn:E; intros [H|H]; try discriminate H; cbn [bind] in H; injection H as <-;
  cbn [bp_total bp_set]; (split; [intros N; exfalso; apply N; reflexivity|]); rewrite ?map_length, repeat_length; lia.
Qed.
