(** C43, for Next: goroutines that query the same open index, each with a Query of its own. *)
From Coq Require Import String.
From Verif Require Import Model.Base Model.Utf8 Model.Token Model.Blotter Model.Post Model.Poster Model.Shatter Model.Shard Model.Dmd Model.Fnames Model.Conc Model.Config Model.Run Model.Index Model.Query Model.Session Model.DmdConc Model.NextConc.
From Verif Require Import Spec.Text Spec.Fingerprint Spec.Configs Spec.Paths Spec.Reading Spec.Querying Spec.History Spec.Str Spec.Turns.
From Verif Require Import Proof.Tactics Proof.TokenP Proof.BlotterP Proof.QueryP Proof.QueryW Proof.SessionP Proof.SessionP2 Proof.DmdConcP Proof.NextConcP.
From Verif Require Import Props.DmdConc.
Local Open Scope N_scope.
Local Open Scope list_scope.

Theorem C43_next_alone : forall grow ix fuel k q dst, alone (ix_dmd ix) (next_prog grow ix fuel k q dst) = query_next grow ix fuel k q dst.
Proof. exact next_prog_alone. Qed.

(** What calls answer that are made one after the other with one Query and nothing else going on. *)
Inductive answered (grow : nat -> nat) (ix : index) (fuel : nat) : qstate -> list call -> list answer -> Prop :=
  | answered_none q : answered grow ix fuel q [] []
  | answered_get q blot ds cs ds' r : query_get grow ix fuel blot ds = Ok ds' -> answered grow ix fuel q cs r ->
      answered grow ix fuel q (GetBlot blot ds :: cs) (Docs ds' :: r)
  | answered_next q k dst cs q' dst' n eof r : query_next grow ix fuel k q dst = Ok (MkRun q' dst' n, eof) -> answered grow ix fuel q' cs r ->
      answered grow ix fuel q (NextBlots k dst :: cs) (Blots dst' n eof :: r).
Lemma calls_alone grow ix fuel : forall cs q r, alone (ix_dmd ix) (calls_prog grow ix fuel q cs) = Ok r <-> answered grow ix fuel q cs r.
Proof.
  induction cs as [|[blot ds|k dst] cs IH]; intros q r; cbn [calls_prog].
  - cbn [alone]. split; [intros E; assert (r = []) as -> by congruence; constructor|intros H; inversion H; reflexivity].
  - rewrite alone_pbind, get_prog_alone. split.
    + destruct (query_get grow ix fuel blot ds) as [ds'|e| |] eqn:E; cbn [bind]; try discriminate. rewrite alone_pbind.
      destruct (alone (ix_dmd ix) (calls_prog grow ix fuel q cs)) as [r1|e| |] eqn:E1; cbn [bind alone]; try discriminate. intros X.
      assert (r = Docs ds' :: r1) as -> by congruence. constructor; [exact E|apply IH, E1].
    + intros H. inversion H as [|? ? ? ? ds' r1 E R|]; subst. rewrite E. cbn [bind]. rewrite alone_pbind. apply IH in R. rewrite R. reflexivity.
  - rewrite alone_pbind, next_prog_alone. split.
    + destruct (query_next grow ix fuel k q dst) as [[[q' dst' n] eof]|e| |] eqn:E; cbn [bind fst snd r_q r_dst r_n]; try discriminate. rewrite alone_pbind.
      destruct (alone (ix_dmd ix) (calls_prog grow ix fuel q' cs)) as [r1|e| |] eqn:E1; cbn [bind alone]; try discriminate. intros X.
      assert (r = Blots dst' n eof :: r1) as -> by congruence. econstructor; [exact E|apply IH, E1].
    + intros H. inversion H as [| |? ? ? ? q' dst' n eof r1 E R]; subst. rewrite E. cbn [bind fst snd r_q r_dst r_n]. rewrite alone_pbind. apply IH in R. rewrite R. reflexivity.
Qed.
(** What holds: if no two look up a document at the same time, all calls of all goroutines give
    what they would give if the goroutine was alone. Missing: lookups at the same time. *)
Theorem C43_calls_partial : forall grow ix fuel (gs : list (nat * (qstate * list call))) pos st,
  csteps (ix_dmd ix) turns (pos, cstart (map (fun g => (fst g, calls_prog grow ix fuel (fst (snd g)) (snd (snd g)))) gs)) st ->
  forall j h r, nth_error (snd st) j = Some (MkGo h (Running (Finish (Ok r)))) ->
  exists q cs, nth_error gs j = Some (h, (q, cs)) /\ answered grow ix fuel q cs r.
Proof.
  intros grow ix fuel gs pos st H j h r E. destruct (taking_turns (ix_dmd ix) pos _ st H j _ E) as (h' & p & Ep & T). unfold on_track in T. cbn [g_do g_h alone] in T.
  pose proof (steps_handles _ _ _ _ H) as Hh. cbn [snd] in Hh.
  assert (Ej : nth_error (map g_h (snd st)) j = Some h) by (rewrite nth_error_map, E; reflexivity).
  rewrite Hh in Ej. unfold cstart in Ej. rewrite map_map, map_map in Ej. cbn [g_h fst] in Ej. rewrite nth_error_map in Ep, Ej.
  destruct (nth_error gs j) as [[h0 [q cs]]|]; [|discriminate]. cbn [option_map fst snd] in Ep, Ej. exists q, cs.
  assert (h0 = h) as -> by congruence. split; [reflexivity|]. apply calls_alone. congruence.
Qed.

(** REFUTED: on every index in which a blot has two documents, a new Query's Next can return its
    first blot with the document of another goroutine's Get in place of the first one. *)
Theorem C43_concurrent_next_refuted : forall grow ix n content place, index_ok ix n content place ->
  forall fuel, (forall s b, (s < n)%nat -> (b < num_slots)%nat -> (List.length (content s b) < fuel)%nat) ->
  forall dup, duplicated n content dup -> forall b2 d2 l2, at_blot n content b2 = d2 :: l2 ->
  forall k b0 h pos, (2 <= k)%nat ->
  exists d1 l1 q1 e1, query_next grow ix fuel k (start_query ix) [MkEntry b0 None] = Ok (MkRun q1 [e1] 1, false) /\
    docs_keys (be_docs e1) = place d1 :: map place l1 /\
    (List.length (at_blot n content dup) <= List.length (d1 :: l1))%nat /\ (exists s b, (s < n)%nat /\ (b < num_slots)%nat /\ content s b = d1 :: l1) /\
    exists pos' e1' r2, csteps (ix_dmd ix) any
      (pos, cstart [(h, calls_prog grow ix fuel (start_query ix) [NextBlots k [MkEntry b0 None]]); (h, calls_prog grow ix fuel (start_query ix) [GetBlot b2 None])])
      (pos', [MkGo h (Running (Finish (Ok [Blots [e1'] 1 false]))); MkGo h (Running (Finish r2))]) /\
    be_blot e1' = be_blot e1 /\ docs_keys (be_docs e1') = place d2 :: map place l1.
Proof.
  intros grow ix n content place I fuel Hf dup Dd b2 d2 l2 E2 k b0 h pos Lk.
  destruct (start_first grow ix n content place I fuel dup Hf Dd) as (rs & s & d1 & l1 & Eq & Es & R & L1 & Lf & Pl & Mx & Ct).
  destruct (next_prog_head grow ix n content place (start_query ix) rs s d1 l1 fuel k b0 Eq Es R L1 Lf Pl Lk) as (c & [q1 dst1 n1] & e & En & Ep & Er & N1 & K & _ & X).
  assert (Ls : (N.to_nat (b2 mod N.of_nat n) < n)%nat) by apply (shard_lt grow ix place n content I b2).
  assert (Lb : (N.to_nat (b2 / N.of_nat n mod 65536) < num_slots)%nat) by apply (slot_lt grow n b2).
  destruct (get_prog_head grow ix n content place I b2 d2 l2 fuel E2) as (k2 & Eg & _).
  { rewrite <- E2. exact (Hf _ _ Ls Lb). }
  assert (Ed : docid2doc ix d2 = Ok (place d2)).
  { apply (io_place _ _ _ _ I _ _ d2 Ls Lb). change (In d2 (at_blot n content b2)). rewrite E2. left. reflexivity. }
  assert (exists fl, dmd_lookup (ix_dmd ix) d2 = Ok fl) as [fl El] by (unfold docid2doc in Ed; destruct (dmd_lookup (ix_dmd ix) d2); try discriminate; eauto).
  destruct (X d2 fl El Ed) as ([q2 dst2 n2] & e' & Ea & Er' & Eq' & N2 & Eb & K').
  cbn [r_q r_dst r_n] in *. subst n1 n2 dst1 dst2 q2.
  exists d1, l1, q1, e. split; [exact En|]. split; [exact K|]. split; [exact Mx|]. split; [exact Ct|].
  cbn [calls_prog]. rewrite Ep, Eg. cbn [pbind].
  match goal with |- context [cstart [(h, Look d1 ?k1); (h, Look d2 ?k2)]] => destruct (overtaken (ix_dmd ix) h d1 k1 d2 k2 fl pos El) as (pos' & r2 & S) end.
  exists pos', e', r2. split; [|split; [exact Eb|exact K']]. rewrite alone_pbind, Ea in S. exact S.
Qed.
(** The witness: five documents; alone Next gives the three that share the first text. *)
Theorem C43_next_wrong_document_refuted : exists c docs, default_config (bs "/") (bs "x") = Ok c /\ docs_fit docs /\
  forall u sorted grow fuel h pos k, sorts sorted -> (5 < fuel)%nat -> (2 <= k)%nat ->
    (exists dk, history u c [docs] dk) /\
    forall dk, history u c [docs] dk -> exists ix b2, open_index sorted dk = Ok ix /\
      exists q1 alone1 together1 pos' r2, query_next grow ix fuel k (start_query ix) [MkEntry 0 None] = Ok (MkRun q1 [alone1] 1, false) /\
        csteps (ix_dmd ix) any
          (pos, cstart [(h, calls_prog grow ix fuel (start_query ix) [NextBlots k [MkEntry 0 None]]); (h, calls_prog grow ix fuel (start_query ix) [GetBlot b2 None])])
          (pos', [MkGo h (Running (Finish (Ok [Blots [together1] 1 false]))); MkGo h (Running (Finish r2))]) /\
        docs_keys (be_docs alone1) = [(bs "/1", 0, 22); (bs "/2", 0, 22); (bs "/3", 0, 22)] /\
        docs_keys (be_docs together1) = [(bs "/4", 0, 22); (bs "/2", 0, 22); (bs "/3", 0, 22)].
Proof.
  exists wit_config, wit_docs. split; [exact wit_default|]. split; [exact wit_fit|]. intros u sorted grow fuel h pos k Hs Hf Hk. split.
  { destruct wit_full as [A B C]. apply (history_exists u wit_config 1 10 2 A B C); [discriminate|reflexivity|exact wit_fit]. }
  intros dk Hi. destruct (opened u wit_config 1 10 2 sorted wit_full Hs [wit_docs] dk wit_wss Hi wit_fit (wit_words u)) as (ix & E & I).
  assert (B1 : at_blot 2 (held (word_hash u) 1 10 2 wit_wss) wit_blot1 = [1; 2; 3]).
  { unfold at_blot, held. rewrite !N2Nat.id, wit_carriers. change (wit_blot1 / N.of_nat 2 mod 65536 * N.of_nat 2 + wit_blot1 mod N.of_nat 2) with wit_blot1. rewrite N.eqb_refl. reflexivity. }
  assert (B2 : at_blot 2 (held (word_hash u) 1 10 2 wit_wss) wit_blot2 = [4; 5]).
  { unfold at_blot, held. rewrite !N2Nat.id, wit_carriers. change (wit_blot2 / N.of_nat 2 mod 65536 * N.of_nat 2 + wit_blot2 mod N.of_nat 2) with wit_blot2.
    change (wit_blot1 =? wit_blot2) with false. rewrite N.eqb_refl. reflexivity. }
  assert (Hl : forall s b, (s < 2)%nat -> (b < num_slots)%nat -> (List.length (held (word_hash u) 1 10 2 wit_wss s b) < fuel)%nat).
  { intros s b _ _. unfold held. rewrite wit_carriers. repeat match goal with |- context [if ?c then _ else _] => destruct c end; cbn [List.length]; clear -Hf; lia. }
  assert (Dp : duplicated 2 (held (word_hash u) 1 10 2 wit_wss) wit_blot1) by (split; [vm_compute; reflexivity|rewrite B1; cbn [List.length]; clear; lia]).
  destruct (C43_concurrent_next_refuted grow ix 2 _ _ I fuel Hl wit_blot1 Dp wit_blot2 4 [5] B2 k 0 h pos Hk) as (d1 & l1 & q1 & e1 & En & K1 & Mx & (s & b & _ & _ & Ec) & pos' & e2 & r2 & S & _ & K2).
  assert (D : d1 :: l1 = [1; 2; 3]).
  { rewrite <- Ec in Mx |- *. rewrite B1 in Mx. unfold held in *. rewrite wit_carriers in *.
    destruct (wit_blot1 =? _); [reflexivity|]. destruct (wit_blot2 =? _); cbn [List.length] in Mx; exfalso; clear -Mx; lia. }
  assert (d1 = 1 /\ l1 = [2; 3]) as [-> ->] by (split; congruence).
  exists ix, wit_blot2. split; [exact E|]. exists q1, e1, e2, pos', r2. split; [exact En|]. split; [exact S|]. split; [rewrite K1|rewrite K2]; reflexivity.
Qed.
Print Assumptions C43_next_alone.
Print Assumptions C43_calls_partial.
Print Assumptions C43_concurrent_next_refuted.
Print Assumptions C43_next_wrong_document_refuted.
(** Calls of two goroutines, one of which iterates; and such a run, in turns, to its end. *)
Example C43_calls_example : forall grow ix fuel q pos, exists pos' st,
  csteps (ix_dmd ix) turns (pos, cstart (map (fun g => (fst g, calls_prog grow ix fuel (fst (snd g)) (snd (snd g)))) [(0%nat, (q, [])); (0%nat, (q, [NextBlots 1 []; NextBlots 1 []]))])) (pos', st) /\
  nth_error st 1 = Some (MkGo 0 (Running (Finish (Ok [Blots [] 0 false; Blots [] 0 false])))).
Proof.
  intros grow ix fuel q pos. destruct (C43_all_can_finish (list answer) (ix_dmd ix) (map (fun g => (fst g, calls_prog grow ix fuel (fst (snd g)) (snd (snd g)))) [(0%nat, (q, [])); (0%nat, (q, [NextBlots 1 []; NextBlots 1 []]))]) pos) as (pos' & S).
  eexists pos', _. split; [exact S|]. reflexivity.
Qed.
