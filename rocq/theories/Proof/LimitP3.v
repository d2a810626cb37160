(** With one shard, Query.Next returns the documents of every blot, by and by. *)
From Coq Require Import Permutation.
From Verif Require Import Model.Base Model.Address Model.Post Model.Poster Model.Shard Model.Dmd Model.Fnames Model.Config Model.Index Model.Query.
From Verif Require Import Spec.Reading Spec.Querying Spec.Limited Proof.Tactics Proof.AddressP Proof.QueryP Proof.QueryP2 Proof.QueryP3 Proof.LimitP Proof.LimitP2.
Local Open Scope N_scope.

Lemma returned_app a b x : returned (a ++ b) x = returned a x ++ returned b x.
Proof. unfold returned. rewrite filter_app, map_app, concat_app. reflexivity. Qed.
Lemma returned_one e x : returned [e] x = if be_blot e =? x then docs_keys (be_docs e) else [].
Proof. unfold returned. cbn [filter]. destruct (be_blot e =? x); cbn [map concat]; [apply app_nil_r|reflexivity]. Qed.
Lemma usable_fresh e : usable e -> fresh e.
Proof. unfold usable, fresh. destruct (be_docs e) as [[? ?]|]; tauto. Qed.
Lemma usable_room e : usable e <-> fresh e /\ match room e with None => True | Some c => (2 <= c)%nat end.
Proof. unfold usable, fresh, room. destruct (be_docs e) as [[? ?]|]; tauto. Qed.

Section L.
  Variable grow : nat -> nat.
  Variables (ix : index) (place : N -> bytes * N * N) (content : nat -> nat -> list N).
  Hypothesis I : index_ok ix 1 content place.
  Variable fuel : nat.
  Hypothesis Hf : forall s b, (s < 1)%nat -> (b < num_slots)%nat -> (length (content s b) < fuel)%nat.
  Notation QL := (QL ix 1 content).
  Notation Phi := (Phi 1 fuel).
  Notation held p := (held_at ix content 0 p).
  Notation num p := (blot_num 1 0 (slot ix 0 p)).

  Lemma num_inj p p' : (p < num_slots)%nat -> (p' < num_slots)%nat -> num p = num p' -> p = p'.
  Proof.
    intros L L' E. unfold blot_num in E. assert (slot ix 0 p = slot ix 0 p') as E' by (clear -E; lia). unfold slot in E'.
    destruct (permof_spec grow ix place 1 content I fuel Hf 0 Nat.lt_0_1) as (si & Es & Ep & Lp & _).
    destruct (io_perm _ _ _ _ I 0%nat si Es) as [P _]. rewrite <- Ep in P.
    assert (ND : NoDup (permof ix 0)) by (eapply Permutation_NoDup; [symmetry; exact P|apply seq_NoDup]).
    rewrite NoDup_nth in ND. apply (ND p p'); [rewrite Lp; exact L|rewrite Lp; exact L'|exact E'].
  Qed.
  Definition most (em : list blot_entry) (p : nat) : Prop :=
    exists ids rest, held p = ids ++ rest /\ returned em (num p) = map place ids /\ (length rest <= 1)%nat.
  Definition J (v : astate) (em : list blot_entry) : Prop :=
    match v with
    | None => forall p, (p < num_slots)%nat -> most em p
    | Some (a, suf) => (a < num_slots)%nat /\ (forall p, (p < a)%nat -> most em p) /\
        (exists ids, held a = ids ++ suf /\ returned em (num a) = map place ids) /\
        forall p, (a < p)%nat -> (p < num_slots)%nat -> returned em (num p) = []
    end.
  (** When all but one document at most has been returned, it goes on. *)
  Lemma J_after em a : (a < num_slots)%nat -> (forall p, (p <= a)%nat -> most em p) ->
    (forall p, (a < p)%nat -> (p < num_slots)%nat -> returned em (num p) = []) -> J (after ix content 0 a 0) em.
  Proof.
    intros La Lo Hi. unfold after. destruct (Nat.eqb_spec (S a) num_slots) as [E|E].
    - intros p Lp. apply Lo. clear -Lp E. lia.
    - destruct (Nat.leb_spec (length (held a)) 1) as [L1|L1].
      + intros p Lp. destruct (Nat.le_gt_cases p a) as [X|X]; [apply Lo; exact X|]. exists [], (held p). split; [reflexivity|]. split; [apply Hi; assumption|].
        destruct (permof_spec grow ix place 1 content I fuel Hf 0 Nat.lt_0_1) as (si & _ & _ & _ & _ & So).
        specialize (So a p ltac:(clear -X Lp; lia)). unfold held_at, slot in *. clear -So L1. lia.
      + cbn [J]. split; [clear -La E; lia|]. split; [intros p Lp; apply Lo; clear -Lp; lia|]. split; [|intros p Lp; apply Hi; clear -Lp; lia].
        exists []. split; [reflexivity|]. apply Hi; [clear; lia|clear -La E; lia].
  Qed.
  Lemma most_other em e p : be_blot e <> num p -> most em p -> most (em ++ [e]) p.
  Proof.
    intros Ne (ids & rest & A & B & C). exists ids, rest. split; [exact A|]. split; [|exact C]. rewrite returned_app, returned_one.
    destruct (N.eqb_spec (be_blot e) (num p)); [congruence|]. rewrite app_nil_r. exact B.
  Qed.
  Lemma J_hit em e a c suf : J (Some (a, suf)) em -> be_blot e = num a -> docs_keys (be_docs e) = map place (part c suf) ->
    J (if ended c suf then after ix content 0 a 0 else Some (a, left c suf)) (em ++ [e]).
  Proof.
    intros (La & Lo & (ids & Ei & Ri) & Hi) Eb Ed.
    assert (Oth : forall p, (p < num_slots)%nat -> p <> a -> be_blot e <> num p).
    { intros p Lp Np X. rewrite Eb in X. apply num_inj in X; auto. }
    assert (Ra : returned (em ++ [e]) (num a) = map place (ids ++ part c suf)).
    { rewrite returned_app, returned_one, Eb, N.eqb_refl, Ed, Ri, map_app. reflexivity. }
    assert (Hi' : forall p, (a < p)%nat -> (p < num_slots)%nat -> returned (em ++ [e]) (num p) = []).
    { intros p L1 L2. rewrite returned_app, returned_one, (Hi p L1 L2). destruct (N.eqb_spec (be_blot e) (num p)) as [X|_]; [|reflexivity].
      exfalso. apply (Oth p L2); [clear -L1; lia|exact X]. }
    assert (Lo' : forall p, (p < a)%nat -> most (em ++ [e]) p).
    { intros p Lp. apply most_other; [|apply Lo, Lp]. apply Oth; clear -Lp La; lia. }
    destruct (ended c suf) eqn:En.
    - apply J_after; auto. intros p Lp. destruct (Nat.eq_dec p a) as [->|Np]; [|apply Lo'; clear -Lp Np; lia].
      exists (ids ++ suf), []. rewrite app_nil_r. split; [exact Ei|]. split; [|cbn; auto]. rewrite Ra. f_equal. f_equal.
      unfold part, ended in *. destruct c as [c|]; [|reflexivity]. apply Nat.ltb_lt in En. apply firstn_all2. clear -En. lia.
    - cbn [J]. split; [exact La|]. split; [exact Lo'|]. split; [|exact Hi']. exists (ids ++ part c suf). split; [|exact Ra].
      rewrite <- app_assoc, Ei. f_equal. unfold part, left, ended in *. destruct c as [c|]; [|discriminate]. symmetry. apply firstn_skipn.
  Qed.
  Lemma J_skip em a suf : J (Some (a, suf)) em -> (length suf <= 1)%nat -> J (after ix content 0 a 0) em.
  Proof.
    intros (La & Lo & (ids & Ei & Ri) & Hi) Ls. apply J_after; auto. intros p Lp. destruct (Nat.eq_dec p a) as [->|Np]; [|apply Lo; clear -Lp Np; lia].
    exists ids, suf. auto.
  Qed.
  Lemma J_prefix v em p : J v em -> (p < num_slots)%nat -> exists ids rest, held p = ids ++ rest /\ returned em (num p) = map place ids /\ (v = None -> (length rest <= 1)%nat).
  Proof.
    intros H Lp. destruct v as [[a suf]|].
    - destruct H as (La & Lo & (ids & Ei & Ri) & Hi). destruct (Nat.lt_trichotomy p a) as [X|[->|X]].
      + destruct (Lo p X) as (i & r & A & B & C). exists i, r. auto.
      + exists ids, suf. split; [exact Ei|]. split; [exact Ri|discriminate].
      + exists [], (held p). split; [reflexivity|]. split; [apply Hi; assumption|discriminate].
    - destruct (H p Lp) as (i & r & A & B & C). exists i, r. auto.
  Qed.

  Definition usables (k : nat) (dst : list blot_entry) : Prop := forall i e, (k <= i)%nat -> nth_error dst i = Some e -> usable e.
  Lemma usables_upd k dst e : (k < length dst)%nat -> usable e -> usables k dst -> usables k (upd k e dst).
  Proof.
    intros L F A i e' Li E. destruct (Nat.eq_dec k i) as [<-|N].
    - rewrite nth_error_upd_eq in E by exact L. inv E. exact F.
    - rewrite nth_error_upd_ne in E by exact N. exact (A _ _ Li E).
  Qed.
  Lemma usables_S k dst e : usables k dst -> usables (S k) (upd k e dst).
  Proof. intros A i e' Li E. rewrite nth_error_upd_ne in E by lia. apply (A i); [lia|exact E]. Qed.

  Lemma next_one : forall m r h em, (Phi h + N.to_nat (gap 1 (r_q r)) < m)%nat ->
    QL (r_q r) h -> J (h 0%nat) em -> usables (r_n r) (r_dst r) -> (r_n r <= length (r_dst r))%nat ->
    exists k r' h' eof es, next_loop grow ix fuel k r = Ok (r', eof) /\ QL (r_q r') h' /\ J (h' 0%nat) (em ++ es) /\
      firstn (r_n r') (r_dst r') = firstn (r_n r) (r_dst r) ++ es /\ (eof = true -> h' 0%nat = None /\ r_n r' = 0%nat).
  Proof.
    induction m as [|m IH]; intros r h em Lm Q Je Fr Ln; [lia|].
    destruct (nth_error (r_dst r) (r_n r)) as [entry|] eqn:Ee.
    2:{ exists 1%nat, r, h, false, []. cbn [next_loop]. unfold next_iter. rewrite Ee. cbn [bind]. rewrite !app_nil_r. split; [reflexivity|]. split; [exact Q|]. split; [exact Je|]. split; [reflexivity|discriminate]. }
    assert (Ln' : (r_n r < length (r_dst r))%nat) by (apply nth_error_Some; congruence).
    pose proof (ql_i _ _ _ _ _ Q) as Li0. assert (Zi : N.to_nat (q_i (r_q r)) = 0%nat) by (clear -Li0; lia).
    destruct (h 0%nat) as [[a suf]|] eqn:Hi.
    - pose proof Je as (La & _). pose proof (Fr _ _ (le_n _) Ee) as Ue. pose proof (usable_fresh _ Ue) as Fe.
      pose proof (iter_some grow ix place 1 content I fuel Hf r h entry a suf Q Ee Fe) as S0. cbv zeta in S0. rewrite Zi in S0. destruct (S0 Hi) as (q1 & Q1 & N1 & M1 & S1). clear S0.
      destruct (gone_less grow ix place 1 content I fuel Hf h 0 a (room entry) suf Nat.lt_0_1 La Hi) as [G1 G2].
      assert (Lp : (length (part (room entry) suf) <= length suf)%nat) by (unfold part; destruct (room entry); [rewrite firstn_length|]; clear; lia).
      destruct (Nat.leb_spec (length (part (room entry) suf)) 1) as [Sm|Bg].
      + destruct S1 as (q2 & e & E & Q2 & N2 & _ & Fe' & Re'). pose proof (ql_i _ _ _ _ _ Q1) as Li1. assert (Zj : N.to_nat (q_i q1) = 0%nat) by (clear -Li1; lia). rewrite Zj in Q2.
        set (h2 := hset (gone ix content h 0 a (room entry) suf) 0 (after ix content 0 a 0)) in *.
        assert (Lt : (Phi h2 < Phi h)%nat).
        { apply (skip_less grow ix place 1 content I fuel Hf); auto using Nat.lt_0_1. }
        apply usable_room in Ue. destruct Ue as [_ Uc].
        assert (Ls : (length suf <= 1)%nat). { clear -Sm Uc. unfold part in Sm. destruct (room entry) as [c|]; [rewrite firstn_length in Sm; lia|exact Sm]. }
        destruct (IH (MkRun q2 (upd (r_n r) e (r_dst r)) (r_n r)) h2 em) as (k & r' & h' & eof & es & E2 & A & B & C & D); cbn [r_q r_n r_dst].
        { unfold gap in *. rewrite N2. clear -Lm Lt. lia. } { exact Q2. } { unfold h2, hset. cbn [Nat.eqb]. eapply J_skip; eauto. }
        { apply usables_upd; auto. apply usable_room. rewrite Re'. auto. } { rewrite upd_length. exact Ln. }
        exists (S k), r', h', eof, es. cbn [next_loop]. rewrite E. cbn [bind]. split; [exact E2|]. split; [exact A|]. split; [exact B|]. split; [|exact D].
        cbn [r_n r_dst] in C. rewrite firstn_upd_le in C by apply le_n. exact C.
      + destruct S1 as (e & E & Eb & Ed).
        assert (Lt : (2 + Phi (gone ix content h 0 a (room entry) suf) <= Phi h)%nat).
        { destruct Je as (_ & _ & (ids & Ep & _) & _). pose proof (held_fuel grow ix place 1 content I fuel Hf 0 a Nat.lt_0_1 La) as F0. rewrite Ep, app_length in F0.
          destruct (ended (room entry) suf); [specialize (G1 eq_refl)|specialize (G2 eq_refl)]; clear -G1 G2 F0 Bg Lp; lia. }
        destruct (IH (MkRun q1 (upd (r_n r) e (r_dst r)) (S (r_n r))) (gone ix content h 0 a (room entry) suf) (em ++ [e])) as (k & r' & h' & eof & es & E2 & A & B & C & D); cbn [r_q r_n r_dst].
        { unfold gap in *. rewrite N1. clear -Lm Lt. lia. } { exact Q1. } { unfold gone, hset. cbn [Nat.eqb]. apply J_hit; auto. } { apply usables_S; auto. } { rewrite upd_length. clear -Ln'. lia. }
        exists (S k), r', h', eof, (e :: es). cbn [next_loop]. rewrite E. cbn [bind]. split; [exact E2|]. split; [exact A|].
        split; [rewrite <- app_assoc in B; exact B|]. split; [|exact D].
        cbn [r_n r_dst] in C. rewrite firstn_upd_S in C by exact Ln'. rewrite <- app_assoc in C. exact C.
    - rewrite <- Zi in Hi. destruct (iter_nil grow ix place 1 content I fuel Hf r h Q Ln' Hi) as (q & v & E & Q2 & V). rewrite Zi in Hi. destruct V as [->|[-> G]].
      + exists 1%nat, (MkRun q (r_dst r) (r_n r)), h, (r_n r =? 0)%nat, []. cbn [next_loop]. rewrite E. cbn [bind]. split; [destruct (r_n r =? 0)%nat; reflexivity|].
        cbn [r_q r_n r_dst]. rewrite !app_nil_r. rewrite Hi. split; [exact Q2|]. split; [exact Je|]. split; [reflexivity|]. intros X. apply Nat.eqb_eq in X. auto.
      + destruct (IH (MkRun q (r_dst r) (r_n r)) h em) as (k & r' & h' & eof & es & E2 & C); cbn [r_q r_n r_dst]; auto; [clear -Lm G; lia|rewrite Hi; exact Je|].
        exists (S k), r', h', eof, es. cbn [next_loop]. rewrite E. cbn [bind]. split; [exact E2|exact C].
  Qed.

  Notation asked := (queried grow ix fuel (Forall usable)).
  Lemma usable_usables dst : Forall usable dst -> usables 0 dst.
  Proof. intros D i e _ Ei. rewrite Forall_forall in D. apply D. eapply nth_error_In, Ei. Qed.
  Lemma one_inv q out : asked q out -> exists h, QL q h /\ J (h 0%nat) out.
  Proof.
    induction 1 as [|q out dst k r eof Q IH D E].
    - exists (h0 ix content). split; [exact (start_QL grow ix place 1 content I fuel Hf)|]. cbn [J h0]. split; [unfold num_slots; lia|]. split; [intros p Lp; inversion Lp|].
      split; [exists []; auto|]. auto.
    - destruct IH as (h & Qh & Jh).
      destruct (next_one _ (MkRun q dst 0) h out (Nat.lt_succ_diag_r _) Qh Jh (usable_usables _ D)) as (k' & r' & h' & eof' & es & E' & A & B & C & _); [cbn [r_n]; lia|].
      pose proof (next_loop_det grow ix fuel _ _ _ _ _ E E') as X. inv X. cbn [r_n r_dst firstn app] in C. rewrite C. eauto.
  Qed.
  Theorem one_shard q out : asked q out -> forall blot, blot < 65536 ->
    exists ids rest, at_blot 1 content blot = ids ++ rest /\ returned out blot = map place ids /\
      forall k dst r, Forall usable dst -> query_next grow ix fuel k q dst = Ok (r, true) -> (length rest <= 1)%nat.
  Proof.
    intros Q blot Lb. destruct (one_inv _ _ Q) as (h & Qh & Jh).
    destruct (permof_spec grow ix place 1 content I fuel Hf 0 Nat.lt_0_1) as (si & Es & Ep & Lp & _).
    destruct (io_perm _ _ _ _ I 0%nat si Es) as [P _]. rewrite <- Ep in P.
    assert (Ip : In (N.to_nat blot) (permof ix 0)).
    { eapply Permutation_in; [symmetry; exact P|]. apply in_seq. unfold num_slots. lia. }
    destruct (In_nth _ _ 0%nat Ip) as (p & Lpp & Enp). rewrite Lp in Lpp.
    assert (Nb : num p = blot). { unfold blot_num, slot. rewrite Enp. clear. lia. }
    assert (Hb : at_blot 1 content blot = held p).
    { rewrite <- Nb. apply (at_blot_num grow 1 content fuel Hf); [exact Nat.lt_0_1|]. apply (slot_lt grow ix place 1 content I fuel Hf); auto using Nat.lt_0_1. }
    rewrite Hb. destruct (J_prefix _ _ p Jh Lpp) as (ids & rest & A & B & C). rewrite Nb in B.
    exists ids, rest. split; [exact A|]. split; [exact B|]. intros k dst r D E.
    destruct (next_one _ (MkRun q dst 0) h out (Nat.lt_succ_diag_r _) Qh Jh (usable_usables _ D)) as (k' & r' & h' & eof' & es & E' & Qh' & Jh' & C' & Hn); [cbn [r_n]; lia|].
    pose proof (next_loop_det grow ix fuel _ _ _ _ _ E E') as X. injection X; intros; subst r' eof'. clear X.
    destruct (Hn eq_refl) as [Hn1 Hn2]. rewrite Hn2 in C'. cbn [r_n r_dst firstn app] in C'. subst es. rewrite app_nil_r in Jh'.
    destruct (J_prefix _ _ p Jh' Lpp) as (ids' & rest' & A' & B' & C''). rewrite Nb in B'.
    assert (length ids = length ids') as Le by (rewrite B in B'; apply (f_equal (@length _)) in B'; rewrite !map_length in B'; exact B').
    assert (length rest = length rest') as ->; [|apply C''; exact Hn1]. rewrite A in A'. apply (f_equal (@length _)) in A'. rewrite !app_length in A'. clear -Le A'. lia.
  Qed.
End L.
