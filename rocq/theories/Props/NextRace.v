(** C121: goroutines that share one Query and call its Next. *)
From Coq Require Import String Lia.
From Verif Require Import Model.Base Model.Utf8 Model.Token Model.Blotter Model.Address Model.Post Model.Poster Model.Shatter Model.Shard Model.Dmd Model.Fnames Model.Conc Model.Config Model.Run Model.Index Model.Query Model.Session Model.NextRace.
From Verif Require Import Spec.Text Spec.Fingerprint Spec.Configs Spec.Paths Spec.Reading Spec.Querying Spec.History Spec.Str Spec.SomeOf.
From Verif Require Import Proof.Tactics Proof.TokenP Proof.BlotterP Proof.QueryP Proof.QueryW Proof.SessionP Proof.SessionP2 Proof.NextConcP Proof.NextRaceP Proof.NextRaceP2 Proof.NextRaceP3 Proof.NextRaceP4.
From Verif Require Props.Limited.
Local Open Scope N_scope.
Local Open Scope list_scope.

(** What calls of Next with the destinations [dsts] give that are made one after the other: the
    destinations, the number of blots, and whether the error is io.EOF. *)
Inductive one_by_one (grow : nat -> nat) (ix : index) (fuel : nat) : qstate -> list (list blot_entry) -> list (list blot_entry * nat * bool) -> qstate -> Prop :=
| obo_none q : one_by_one grow ix fuel q [] [] q
| obo_call q k dst r eof dsts outs q' : query_next grow ix fuel k q dst = Ok (r, eof) -> one_by_one grow ix fuel (r_q r) dsts outs q' ->
    one_by_one grow ix fuel q (dst :: dsts) ((r_dst r, r_n r, eof) :: outs) q'.

(** Calls that do not overlap: goroutine number i makes [nth i ks 0] steps after all before it have
    made theirs. Then the goroutines get what one goroutine gets with these calls. *)
Theorem C121_in_turn_partial grow ix fuel q dsts outs q' : one_by_one grow ix fuel q dsts outs q' ->
  exists ks h' gs, List.length ks = List.length dsts /\
    next_race grow ix (List.concat (map (fun x => repeat (fst x) (snd x)) (combine (seq 0 (List.length dsts)) ks))) (share q) (map call_next dsts) = (h', gs) /\
    Forall2 (fun g out => g_pc g = NEnd (snd out) /\ g_dst g = fst (fst out) /\ g_n g = snd (fst out)) gs outs /\ qstate_of h' = q'.
Proof.
  intros Sq. assert (G : forall h done, sh_ok h -> qstate_of h = q -> exists ks h' gs, List.length ks = List.length dsts /\
    next_race grow ix (List.concat (map (fun x => repeat (fst x) (snd x)) (combine (seq (List.length done) (List.length dsts)) ks))) h (done ++ map call_next dsts) = (h', done ++ gs) /\
    Forall2 (fun g out => g_pc g = NEnd (snd out) /\ g_dst g = fst (fst out) /\ g_n g = snd (fst out)) gs outs /\ qstate_of h' = q').
  { induction Sq as [q|q k dst r eof dsts outs q' E Sq IH]; intros h done O Q.
    - exists [], h, []. split; [reflexivity|]. split; [reflexivity|]. split; [constructor|exact Q].
    - unfold query_next in E. rewrite <- Q in E. destruct (next_solo grow ix fuel k h false dst 0 r eof O E) as (K & h1 & lim & E1 & Q1 & O1).
      set (g := MkIter (NEnd eof) lim (r_dst r) (r_n r)) in *.
      destruct (IH h1 (done ++ [g]) O1 Q1) as (ks & h' & gs & Lk & R & F & Qe). exists (K :: ks), h', (g :: gs). split; [cbn [List.length]; congruence|]. split.
      + cbn [List.length seq combine map List.concat fst snd]. rewrite nrace_app, (nrace_solo grow ix K _ h _ (call_next dst)) by (rewrite nth_error_app2, Nat.sub_diag by lia; reflexivity).
        unfold call_next at 1. rewrite E1. rewrite upd_middle. rewrite app_length in R. cbn [List.length] in R. replace (List.length done + 1)%nat with (S (List.length done)) in R by lia.
        rewrite <- !app_assoc in R. exact R.
      + split; [constructor; [cbn [g g_pc g_dst g_n fst snd]; auto|exact F]|exact Qe]. }
  exact (G (share q) [] (share_ok q) (share_state q)).
Qed.
Print Assumptions C121_in_turn_partial.

(** REFUTED: on every index in which a blot has two documents, two goroutines that share a new Query
    can take the first blot [e1] apart: one gets the first document only and drops it, the other
    gets the rest, and drops it too if it is one document. The place of the blot is passed then. *)
Theorem C121_apart_refuted : forall grow ix n content place, index_ok ix n content place ->
  forall fuel, (forall s b, (s < n)%nat -> (b < num_slots)%nat -> (List.length (content s b) < fuel)%nat) ->
  forall dup, duplicated n content dup -> forall k b0, (2 <= k)%nat ->
  exists d1 l1 q1 e1, query_next grow ix fuel k (start_query ix) [MkEntry b0 None] = Ok (MkRun q1 [e1] 1, false) /\
    docs_keys (be_docs e1) = place d1 :: map place l1 /\ (1 <= List.length l1)%nat /\
    (List.length (at_blot n content dup) <= List.length (d1 :: l1))%nat /\ (exists s b, (s < n)%nat /\ (b < num_slots)%nat /\ content s b = d1 :: l1) /\
    exists sched h' g2, next_race grow ix sched (share (start_query ix)) [call_next [MkEntry b0 None]; call_next [MkEntry b0 None]] =
        (h', [MkIter NTop false [MkEntry (be_blot e1) None] 0; g2]) /\
      (List.length l1 = 1%nat -> g2 = MkIter NTop false [MkEntry (be_blot e1) None] 0) /\
      ((1 < List.length l1)%nat -> exists ds, g2 = MkIter (NEnd false) false [MkEntry (be_blot e1) ds] 1 /\ docs_keys ds = map place l1) /\
      forall rs, nth_error (q_states (qstate_of h')) (N.to_nat (q_i (start_query ix))) = Some (Some rs) -> rs_at rs = 1%nat.
Proof.
  intros grow ix n content place I fuel Hf dup Dd k b0 Lk.
  destruct (start_first grow ix n content place I fuel dup Hf Dd) as (rs & s & d1 & l1 & Eq & Es & R & L1 & Lf & Pl & Mx & Ct).
  destruct (next_prog_head grow ix n content place (start_query ix) rs s d1 l1 fuel k b0 Eq Es R L1 Lf Pl Lk) as (c & [q1 dst1 n1] & e & En & _ & Er & N1 & K & Bl & _).
  cbn [r_dst r_n] in *. subst dst1 n1. exists d1, l1, q1, e. split; [exact En|]. split; [exact K|]. split; [exact L1|]. split; [exact Mx|]. split; [exact Ct|].
  set (q := start_query ix) in *. set (pos := N.to_nat (q_i q)) in *.
  assert (Ep : nth_error (h_ptrs (share q)) pos = Some (Some pos)) by (rewrite share_at, Eq; reflexivity).
  assert (Er : nth pos (h_states (share q)) no_state = rs).
  { cbn [share h_states]. apply nth_error_nth. rewrite nth_error_map, Eq. reflexivity. }
  assert (Z : sized ix (share q)).
  { split; [|apply nth_error_Some; fold pos; cbn [share h_i]; fold pos; congruence].
    cbn [share h_ptrs]. rewrite map_length, combine_length, seq_length, Nat.min_id. unfold q, start_query, set_max. cbn [q_states]. rewrite map_length. reflexivity. }
  assert (At : rs_at rs = 0%nat).
  { unfold q, start_query, set_max in Eq. cbn [q_states] in Eq. rewrite nth_error_map in Eq. destruct (nth_error (ix_shards ix) pos); [|discriminate]. cbn [option_map] in Eq. injection Eq as <-. reflexivity. }
  destruct (split_blot grow ix (share q) pos s d1 l1 place b0 (share_ok q) Z Ep Es L1) as (sched & h' & g2 & E & H1 & H2 & H3).
  { rewrite Er. exact R. } { exact Pl. }
  rewrite Er in *. cbn [share h_n h_i] in E, H1, H2, H3. fold pos in H3. rewrite <- Bl in *. exists sched, h', g2. split; [exact E|]. split; [exact H1|]. split; [exact H2|].
  intros rs' E'. rewrite (H3 rs' E'), At. reflexivity.
Qed.
Print Assumptions C121_apart_refuted.

(** What holds of every interleaving, of any number of goroutines whose destinations hold no
    documents yet: no call fails, and every blot given has two documents or more in the index; those
    given with it, two or more, are some of its documents, each once and in their order. *)
Theorem C121_sound_partial : forall grow ix n content place, index_ok ix n content place ->
  forall dsts, Forall (Forall (fun e => docs_wf (be_docs e) /\ docs_list (be_docs e) = [])) dsts ->
  forall sched h' gs, next_race grow ix sched (share (start_query ix)) (map call_next dsts) = (h', gs) ->
  Forall (fun g => (forall r, g_pc g <> NFail r) /\
    forall j e, (j < g_n g)%nat -> nth_error (g_dst g) j = Some e -> duplicated n content (be_blot e) /\
      exists l, docs_keys (be_docs e) = map place l /\ (2 <= List.length l)%nat /\ some_of l (at_blot n content (be_blot e))) gs.
Proof.
  intros grow ix n content place I dsts Hd sched h' gs E.
  pose proof (race_ok grow ix n content place I sched _ (share (start_query ix)) (map call_next dsts) (start_ok grow ix n content place I)) as R. rewrite E in R.
  destruct R as (own & _ & R).
  { apply Forall_forall. intros g Hg. apply in_map_iff in Hg. destruct Hg as (dst & <- & Hi). rewrite Forall_forall in Hd. eapply call_ok; [exact grow|exact (Hd dst Hi)]. }
  eapply Forall_impl; [|exact R]. intros g (G1 & G2 & _ & G4 & _). split; [exact G4|]. intros j e Lj Ee. destruct (G2 j e Lj Ee) as (L2 & s & b & Rt).
  destruct (right_at grow ix n content place I e s b Rt) as (Lt & l & K & So).
  assert (Ll : (2 <= List.length l)%nat).
  { rewrite <- (map_length place), <- K. unfold docs_keys. rewrite map_length. specialize (G1 j e Ee). destruct (be_docs e) as [[m back]|]; cbn [docs_len docs_wf docs_list] in *; [|lia]. rewrite firstn_length. lia. }
  split; [split; [exact Lt|]|exists l; auto]. pose proof (some_length _ _ So). lia.
Qed.
Print Assumptions C121_sound_partial.

(** REFUTED too: that a blot is given to one of them. On every index of one shard in which two blots
    have two documents, two of three goroutines can get the same blot with the same documents. *)
Theorem C121_twice_refuted : forall grow ix content place, index_ok ix 1 content place ->
  forall b1 b2, duplicated 1 content b1 -> duplicated 1 content b2 -> b1 <> b2 -> forall b0,
  exists sched h' g0 b ds, next_race grow ix sched (share (start_query ix)) [call_next [MkEntry b0 None]; call_next [MkEntry b0 None]; call_next [MkEntry b0 None]] =
    (h', [g0; MkIter (NEnd false) false [MkEntry b ds] 1; MkIter (NEnd false) false [MkEntry b ds] 1]) /\ (2 <= List.length (docs_keys ds))%nat.
Proof. intros grow ix content place I b1 b2 D1 D2 Ne b0. exact (twice grow ix content place I b1 b2 b0 D1 D2 Ne). Qed.
Print Assumptions C121_twice_refuted.
Example C121_twice_met u sorted : sorts sorted -> exists dk ix content place, history u Limited.one_config [wit_docs] dk /\ open_index sorted dk = Ok ix /\ index_ok ix 1 content place /\
  exists b1 b2, duplicated 1 content b1 /\ duplicated 1 content b2 /\ b1 <> b2.
Proof.
  intros Hs. destruct (proj2 (proj2 Limited.C78_example) u sorted Hs) as (ix & (dk & Hi & E) & I). eexists dk, ix, _, _. split; [exact Hi|]. split; [exact E|]. split; [exact I|].
  exists (wit_blot1 mod 65536), (wit_blot2 mod 65536). split; [|split; [|vm_compute; discriminate]].
  - split; [vm_compute; reflexivity|].
    assert (X : at_blot 1 (held (word_hash u) 1 10 1 wit_wss) (wit_blot1 mod 65536) = [1; 2; 3]) by (vm_compute; reflexivity). rewrite X. cbn [List.length]. lia.
  - split; [vm_compute; reflexivity|].
    assert (X : at_blot 1 (held (word_hash u) 1 10 1 wit_wss) (wit_blot2 mod 65536) = [4; 5]) by (vm_compute; reflexivity). rewrite X. cbn [List.length]. lia.
Qed.

(** The witness, an index of five documents: alone Next gives the three that share the first text;
    of two goroutines that share a Query one gets two of them, and the other none. *)
Theorem C121_lost_document_refuted : exists c docs, default_config (bs "/") (bs "x") = Ok c /\ docs_fit docs /\
  forall u sorted grow fuel k, sorts sorted -> (5 < fuel)%nat -> (2 <= k)%nat ->
    (exists dk, history u c [docs] dk) /\
    forall dk, history u c [docs] dk -> exists ix, open_index sorted dk = Ok ix /\
      exists q1 e1 sched h' ds, query_next grow ix fuel k (start_query ix) [MkEntry 0 None] = Ok (MkRun q1 [e1] 1, false) /\
        docs_keys (be_docs e1) = [(bs "/1", 0, 22); (bs "/2", 0, 22); (bs "/3", 0, 22)] /\
        next_race grow ix sched (share (start_query ix)) [call_next [MkEntry 0 None]; call_next [MkEntry 0 None]] =
          (h', [MkIter NTop false [MkEntry (be_blot e1) None] 0; MkIter (NEnd false) false [MkEntry (be_blot e1) ds] 1]) /\
        docs_keys ds = [(bs "/2", 0, 22); (bs "/3", 0, 22)].
Proof.
  exists wit_config, wit_docs. split; [exact wit_default|]. split; [exact wit_fit|]. intros u sorted grow fuel k Hs Hf Hk. split.
  { destruct wit_full as [A B C]. apply (history_exists u wit_config 1 10 2 A B C); [discriminate|reflexivity|exact wit_fit]. }
  intros dk Hi. destruct (opened u wit_config 1 10 2 sorted wit_full Hs [wit_docs] dk wit_wss Hi wit_fit (wit_words u)) as (ix & E & I).
  assert (B1 : at_blot 2 (held (word_hash u) 1 10 2 wit_wss) wit_blot1 = [1; 2; 3]).
  { unfold at_blot, held. rewrite !N2Nat.id, wit_carriers. change (wit_blot1 / N.of_nat 2 mod 65536 * N.of_nat 2 + wit_blot1 mod N.of_nat 2) with wit_blot1. rewrite N.eqb_refl. reflexivity. }
  assert (Hl : forall s b, (s < 2)%nat -> (b < num_slots)%nat -> (List.length (held (word_hash u) 1 10 2 wit_wss s b) < fuel)%nat).
  { intros s b _ _. unfold held. rewrite wit_carriers. repeat match goal with |- context [if ?c then _ else _] => destruct c end; cbn [List.length]; clear -Hf; lia. }
  assert (Dp : duplicated 2 (held (word_hash u) 1 10 2 wit_wss) wit_blot1) by (split; [vm_compute; reflexivity|rewrite B1; cbn [List.length]; clear; lia]).
  destruct (C121_apart_refuted grow ix 2 _ _ I fuel Hl wit_blot1 Dp k 0 Hk) as (d1 & l1 & q1 & e1 & En & K1 & _ & Mx & (s & b & _ & _ & Ec) & sched & h' & g2 & R & _ & H2 & _).
  assert (D : d1 :: l1 = [1; 2; 3]).
  { rewrite <- Ec in Mx |- *. rewrite B1 in Mx. unfold held in *. rewrite wit_carriers in *.
    destruct (wit_blot1 =? _); [reflexivity|]. destruct (wit_blot2 =? _); cbn [List.length] in Mx; exfalso; clear -Mx; lia. }
  assert (d1 = 1 /\ l1 = [2; 3]) as [-> ->] by (split; congruence). destruct H2 as (ds & -> & K2); [cbn [List.length]; clear; lia|].
  exists ix. split; [exact E|]. exists q1, e1, sched, h', ds. split; [exact En|]. split; [rewrite K1; reflexivity|]. split; [exact R|]. rewrite K2. reflexivity.
Qed.
Print Assumptions C121_lost_document_refuted.
(** The hypothesis of [C121_in_turn_partial]: two calls, the first of them for a blot of that index. *)
Example C121_in_turn_met u sorted grow : sorts sorted -> exists dk ix, history u wit_config [wit_docs] dk /\ open_index sorted dk = Ok ix /\
  exists e1 q', one_by_one grow ix 6 (start_query ix) [[MkEntry 0 None]; []] [([e1], 1%nat, false); ([], 0%nat, false)] q' /\
    docs_keys (be_docs e1) = [(bs "/1", 0, 22); (bs "/2", 0, 22); (bs "/3", 0, 22)].
Proof.
  intros Hs. destruct wit_full as [A B C]. destruct (history_exists u wit_config 1 10 2 A B C [wit_docs]) as [dk Hi]; [discriminate|reflexivity|exact wit_fit|].
  destruct (opened u wit_config 1 10 2 sorted wit_full Hs [wit_docs] dk wit_wss Hi wit_fit (wit_words u)) as (ix & E & I).
  assert (B1 : at_blot 2 (held (word_hash u) 1 10 2 wit_wss) wit_blot1 = [1; 2; 3]).
  { unfold at_blot, held. rewrite !N2Nat.id, wit_carriers. change (wit_blot1 / N.of_nat 2 mod 65536 * N.of_nat 2 + wit_blot1 mod N.of_nat 2) with wit_blot1. rewrite N.eqb_refl. reflexivity. }
  assert (Hl : forall s b, (s < 2)%nat -> (b < num_slots)%nat -> (List.length (held (word_hash u) 1 10 2 wit_wss s b) < 6)%nat).
  { intros s b _ _. unfold held. rewrite wit_carriers. repeat match goal with |- context [if ?c then _ else _] => destruct c end; cbn [List.length]; clear; lia. }
  assert (Dp : duplicated 2 (held (word_hash u) 1 10 2 wit_wss) wit_blot1) by (split; [vm_compute; reflexivity|rewrite B1; cbn [List.length]; clear; lia]).
  destruct (C121_apart_refuted grow ix 2 _ _ I 6 Hl wit_blot1 Dp 2 0 (le_n 2)) as (d1 & l1 & q1 & e1 & En & K1 & _ & Mx & (s & b & _ & _ & Ec) & _).
  assert (D : d1 :: l1 = [1; 2; 3]).
  { rewrite <- Ec in Mx |- *. rewrite B1 in Mx. unfold held in *. rewrite wit_carriers in *.
    destruct (wit_blot1 =? _); [reflexivity|]. destruct (wit_blot2 =? _); cbn [List.length] in Mx; exfalso; clear -Mx; lia. }
  assert (d1 = 1 /\ l1 = [2; 3]) as [-> ->] by (split; congruence).
  exists dk, ix. split; [exact Hi|]. split; [exact E|]. exists e1, q1. split; [|rewrite K1; reflexivity].
  eapply (obo_call grow ix 6 (start_query ix) 2 [MkEntry 0 None] (MkRun q1 [e1] 1) false); [exact En|].
  eapply (obo_call grow ix 6 q1 1 [] (MkRun q1 [] 0) false); [reflexivity|constructor].
Qed.
(** The hypotheses of [C121_sound_partial], with a schedule that gives a blot. *)
Example C121_sound_met (u : unicode) sorted grow : sorts sorted -> exists ix content place, index_ok ix 2 content place /\
  Forall (Forall (fun e => docs_wf (be_docs e) /\ docs_list (be_docs e) = [])) [[MkEntry 0 None]; [MkEntry 0 None]] /\
  exists sched h' gs g, next_race grow ix sched (share (start_query ix)) (map call_next [[MkEntry 0 None]; [MkEntry 0 None]]) = (h', gs) /\ In g gs /\ g_n g = 1%nat.
Proof.
  intros Hs. destruct wit_full as [A B C]. destruct (history_exists u wit_config 1 10 2 A B C [wit_docs]) as [dk Hi]; [discriminate|reflexivity|exact wit_fit|].
  destruct (opened u wit_config 1 10 2 sorted wit_full Hs [wit_docs] dk wit_wss Hi wit_fit (wit_words u)) as (ix & E & I).
  eexists ix, _, _. split; [exact I|]. split; [repeat constructor|].
  assert (B1 : at_blot 2 (held (word_hash u) 1 10 2 wit_wss) wit_blot1 = [1; 2; 3]).
  { unfold at_blot, held. rewrite !N2Nat.id, wit_carriers. change (wit_blot1 / N.of_nat 2 mod 65536 * N.of_nat 2 + wit_blot1 mod N.of_nat 2) with wit_blot1. rewrite N.eqb_refl. reflexivity. }
  assert (Hl : forall s b, (s < 2)%nat -> (b < num_slots)%nat -> (List.length (held (word_hash u) 1 10 2 wit_wss s b) < 6)%nat).
  { intros s b _ _. unfold held. rewrite wit_carriers. repeat match goal with |- context [if ?c then _ else _] => destruct c end; cbn [List.length]; clear; lia. }
  assert (Dp : duplicated 2 (held (word_hash u) 1 10 2 wit_wss) wit_blot1) by (split; [vm_compute; reflexivity|rewrite B1; cbn [List.length]; clear; lia]).
  destruct (C121_apart_refuted grow ix 2 _ _ I 6 Hl wit_blot1 Dp 2 0 (le_n 2)) as (d1 & l1 & q1 & e1 & En & K1 & _ & Mx & _ & sched & h' & g2 & R & _ & H2 & _).
  destruct H2 as (ds & -> & _).
  { rewrite B1 in Mx. cbn [List.length] in Mx. clear -Mx. lia. }
  eexists sched, h', _, _. split; [exact R|]. split; [right; left; reflexivity|reflexivity].
Qed.
