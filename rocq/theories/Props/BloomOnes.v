(** C63: what is in a post set. *)
From Verif Require Import Model.Base Model.Bloom Model.BloomOnes Spec.Bits Proof.Tactics Proof.BloomP Proof.BloomOnesP.
Local Open Scope N_scope.

(** Ones appends the members of a set, all of them and in order ... *)
Theorem C63_ones d dst : bp_list d 0 dst = dst ++ members d.
Proof. exact (ones_members d dst). Qed.
(** ... and IsZero says whether there are none. *)
Theorem C63_is_zero d : Forall (fun x => x < 256) d -> (is_zero d = true <-> members d = []).
Proof. exact (zero_members d). Qed.
(** A new set has no members, or all. *)
Theorem C63_fresh b : (0 <= fl_mbytes b)%Z -> exists t t1, bp_init b = Ok t /\ bp_ones b = Ok t1 /\ members (bp_set t) = [] /\
  members (bp_set t1) = seq 0 (8 * Z.to_nat (fl_mbytes b)).
Proof.
  intros H. unfold bp_init, bp_ones, new_set. destruct (Z.ltb_spec (fl_mbytes b) 0); [lia|]. cbn [bind]. do 2 eexists. do 2 (split; [reflexivity|]). cbn [bp_set].
  set (n := Z.to_nat (fl_mbytes b)). clearbody n. split.
  - unfold members. generalize (seq 0 (8 * length (repeat 0 n))). induction l as [|i l IH]; cbn [filter]; [reflexivity|]. rewrite zero_member. exact IH.
  - assert (map (fun _ => 255) (repeat 0 n) = repeat 255 n) as -> by (clear; induction n as [|n IH]; cbn [repeat map]; congruence).
    unfold members. rewrite repeat_length. transitivity (filter (fun _ => true) (seq 0 (8 * n))).
    + apply filter_ext_in'. intros i Hi. apply in_seq in Hi. rewrite full_member. apply Nat.ltb_lt. lia.
    + generalize (seq 0 (8 * n)). induction l as [|i l IH]; cbn [filter]; congruence.
Qed.
(** Union and Intersect of sets of a size. *)
Theorem C63_union t s : length s = length (bp_set t) -> exists t', union t s = Ok t' /\ length (bp_set t') = length (bp_set t) /\
  forall i, In i (members (bp_set t')) <-> In i (members (bp_set t)) \/ In i (members s).
Proof.
  intros L. destruct (zip_member N.lor orb N.lor_spec eq_refl (bp_set t) s L) as (r & E & Lr & M). unfold union. rewrite E. eexists. split; [reflexivity|].
  split; [exact Lr|]. intros i. rewrite !in_members. cbn [bp_set]. rewrite M. apply orb_true_iff.
Qed.
Theorem C63_intersect t s : length s = length (bp_set t) -> exists t', intersect t s = Ok t' /\ length (bp_set t') = length (bp_set t) /\
  forall i, In i (members (bp_set t')) <-> In i (members (bp_set t)) /\ In i (members s).
Proof.
  intros L. destruct (zip_member N.land andb N.land_spec eq_refl (bp_set t) s L) as (r & E & Lr & M). unfold intersect. rewrite E. eexists. split; [reflexivity|].
  split; [exact Lr|]. intros i. rewrite !in_members. cbn [bp_set]. rewrite M. apply andb_true_iff.
Qed.
(** A value stands for [k] members, which PutOnes gives: Has reports it when they are all
    in the set, and Add puts exactly them in. *)
Theorem C63_put_ones b v : (0 < fl_mbytes b < 536870912)%Z -> (0 <= fl_k b < 4294967296)%Z -> exists ps, Z.of_nat (length ps) = fl_k b /\
  (forall dst, (length ps <= length dst)%nat -> put_ones b dst v = Ok (ps ++ skipn (length ps) dst)) /\
  (forall d, has b d v = Ok true <-> forall p, In p ps -> In (N.to_nat p) (members d)) /\
  forall d d', add b d v = Ok d' -> forall i, In i (members d') <-> In i (members d) \/ In (N.of_nat i) ps.
Proof.
  intros B K. exists (positions b v). pose proof (sane_sizes b B) as S. assert (Lp : length (positions b v) = Z.to_nat (fl_k b)).
  { rewrite positions_len. unfold u32_of_int. rewrite Z.mod_small by lia. lia. }
  split; [lia|]. split; [|split].
  - intros dst L. rewrite put_ones_spec; [|exact S|rewrite <- (positions_len b v); exact L]. rewrite <- (positions_len b v). reflexivity.
  - intros d. rewrite has_iff, Forall_forall. split.
    + intros [_ F] p Hp. apply in_members, bit_member, F, Hp.
    + intros F. split; [exact S|]. intros p Hp. apply bit_member, in_members, F, Hp.
  - intros d d' E i. rewrite !in_members. revert d' E. unfold add, ones, positions. intros d' E.
    destruct (ones_from _ _ _ _ _ _) as [[d1 r]| | |] eqn:Eo; try discriminate. injection E as ->.
    revert Eo. generalize 0 at 1 2. generalize (N.to_nat (u32_of_int (fl_k b))). intros n. revert d. induction n as [|n IH]; intros d j Eo; cbn [ones_from pos_from In] in *.
    + injection Eo as <- _. tauto.
    + rewrite clamp_fine in Eo by (destruct S as [Z|S]; [|exact S]; destruct (sane_sizes b B) as [Z2|S2]; [unfold bits_of, u32_of_int, u32 in *; lia|exact S2]).
      cbn [bind] in Eo. fold (bits_of b) in Eo. set (h := u32 (N.lxor (fnv32_hash v) (u32 (j + 97)) * fnv32_prime) mod bits_of b) in *. clearbody h.
      unfold add_fn in Eo. destruct (nth_error d (N.to_nat (h / 8))) as [x|] eqn:Ex; [|discriminate]. cbn [bind] in Eo.
      rewrite (IH _ _ Eo). rewrite mask by lia.
      assert (G : member (upd (N.to_nat (h / 8)) (N.lor x (2 ^ (h mod 8))) d) i = true <-> member d i = true \/ h = N.of_nat i).
      { unfold member. assert (E8 : (i / 8)%nat = N.to_nat (h / 8) <-> N.of_nat i / 8 = h / 8).
        { assert (N.of_nat (i / 8) = N.of_nat i / 8) by (rewrite Nat2N.inj_div; reflexivity). split; intros; lia. }
        assert (Em : N.of_nat (i mod 8) = N.of_nat i mod 8) by (rewrite Nat2N.inj_mod; reflexivity). rewrite Em.
        destruct (Nat.eq_dec (i / 8) (N.to_nat (h / 8))) as [Q|Q].
        - rewrite Q. assert (nth (N.to_nat (h / 8)) d 0 = x) as -> by exact (nth_error_nth _ _ 0 Ex).
          assert (nth (N.to_nat (h / 8)) (upd (N.to_nat (h / 8)) (N.lor x (2 ^ (h mod 8))) d) 0 = N.lor x (2 ^ (h mod 8))) as ->.
          { apply nth_error_nth. rewrite upd_nth, Nat.eqb_refl, Ex. reflexivity. }
          rewrite N.lor_spec, orb_true_iff, N.pow2_bits_eqb, N.eqb_eq. apply E8 in Q. split; (intros [A|A]; [left; exact A|right]).
          + rewrite (N.div_mod h 8), (N.div_mod (N.of_nat i) 8) by lia. congruence.
          + rewrite A. reflexivity.
        - assert (nth (i / 8) (upd (N.to_nat (h / 8)) (N.lor x (2 ^ (h mod 8))) d) 0 = nth (i / 8) d 0) as ->.
          { rewrite <- !nth_default_eq. unfold nth_default. rewrite upd_nth. destruct (Nat.eqb_spec (i / 8) (N.to_nat (h / 8))); [contradiction|reflexivity]. }
          split; [auto|]. intros [A|A]; [exact A|]. exfalso. apply Q, E8. rewrite A. reflexivity. }
      rewrite G. tauto.
Qed.
Print Assumptions C63_ones.
Print Assumptions C63_is_zero.
Print Assumptions C63_fresh.
Print Assumptions C63_union.
Print Assumptions C63_intersect.
Print Assumptions C63_put_ones.
Example C63_example : bp_list [5; 0; 128] 0 [7%nat] = [7; 0; 2; 23]%nat /\ is_zero [0; 0] = true /\ is_zero [0; 1] = false /\
  exists ps, put_ones (MkFnv32 3 4) [0; 0; 0; 1] 7 = Ok (ps ++ [1]).
Proof. repeat split. eexists. vm_compute. apply f_equal. eapply (eq_trans (y := [_; _; _] ++ [1])); reflexivity. Qed.
