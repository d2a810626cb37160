(** Documents with a common blot and no common word. *)
From Coq Require Import String Permutation.
From Verif Require Import Model.Base Model.Utf8 Model.Token Model.Blotter Model.Shatter Model.Conc Model.Config Model.Run Model.Index Model.Query Model.Session Model.Crash.
From Verif Require Import Spec.Text Spec.Fingerprint Spec.Configs Spec.Paths Spec.Reading Spec.Querying Spec.History Spec.Live Spec.Str.
From Verif Require Import Proof.Tactics Proof.TokenP Proof.BlotterP Proof.BlotsP Proof.ShatterP Proof.SessionP Proof.SessionP2 Proof.IndexP2 Proof.LikeP3 Proof.LiveP Proof.FiledP Proof.QueryW.
Local Open Scope N_scope.
Local Open Scope list_scope.

(** Words that all occur an even number of times cancel. *)
Lemma xors_twice l : xors (l ++ l) = 0.
Proof. rewrite xors_app. apply N.lxor_nilpotent. Qed.
Lemma even_blot H k m ws l p : recent k m ws = map Some l -> Permutation l (p ++ p) -> blot_of H k m ws = 0.
Proof.
  intros E P. unfold blot_of. rewrite E, map_map. rewrite (xors_perm _ (map H (p ++ p))) by (apply Permutation_map; exact P).
  rewrite map_app. apply xors_twice.
Qed.
Lemma even_carrier H k m n wss d ws i l p : (0 < d) -> nth_error wss (N.to_nat (d - 1)) = Some ws -> (k * m <= i < List.length ws)%nat ->
  recent k m (firstn (S i) ws) = map Some l -> Permutation l (p ++ p) -> In d (carriers H k m n 0 wss 0).
Proof.
  intros Hd E Hi Er P. replace d with (0 + 1 + N.of_nat (N.to_nat (d - 1))) by lia. eapply carriers_has; [exact E|].
  unfold has_blot. apply existsb_exists. exists 0. split; [|destruct (N.of_nat n * 65536); reflexivity].
  unfold spec_blots. apply in_map_iff. exists i. split; [eapply even_blot; eauto|]. apply in_seq. lia.
Qed.

Lemma not_nodup (l : list N) : ~ NoDup l -> exists a l1 l2 l3, l = l1 ++ a :: l2 ++ a :: l3.
Proof.
  induction l as [|a l IH]; intros N; [exfalso; apply N; constructor|]. destruct (in_dec N.eq_dec a l) as [I|I].
  - apply in_split in I. destruct I as (l2 & l3 & ->). exists a, [], l2, l3. reflexivity.
  - destruct IH as (b & l1 & l2 & l3 & ->); [intros X; apply N; constructor; assumption|]. exists b, (a :: l1), l2, l3. reflexivity.
Qed.
Section A.
  Variables (u : unicode) (c : config) (k m n : nat) (sorted : list N -> list nat).
  Hypotheses (F : cfg_full c k m n) (Hs : sorts sorted).
  Theorem even_listed ss dk : history u c ss dk -> docs_fit (all_docs ss) ->
    exists ix, open_index sorted dk = Ok ix /\ forall grow fuel, (List.length (all_docs ss) < fuel)%nat ->
    exists ds, query_get grow ix fuel 0 None = Ok ds /\
      forall d cwd x ws i l p, 0 < d -> doc_at (all_docs ss) d (cwd, x) -> doc_words (word_char u) (d_dat x) ws -> (k * m <= i < List.length ws)%nat ->
        recent k m (firstn (S i) ws) = map Some l -> Permutation l (p ++ p) -> In (place_of (all_docs ss) d) (docs_keys ds).
  Proof.
    intros Hi Fit. destruct (words_total u (all_docs ss)) as [wss Ww].
    destruct (query_exact u c k m n sorted F Hs ss dk wss Hi Fit Ww) as (ix & Eo & Q). exists ix. split; [exact Eo|]. intros grow fuel Lf.
    destruct (Q grow 0 fuel Lf) as (ds & E & K). exists ds. split; [exact E|]. intros d cwd x ws i l p Hd Ed Dw Hl Er P.
    rewrite K. apply in_map. unfold doc_at in Ed. destruct (nth_Forall2 _ _ _ Ww _ _ Ed) as (ws' & Ew & Dw'). cbn [snd] in Dw'.
    assert (ws' = ws) as -> by (eapply doc_words_fun; eauto).
    replace (0 mod (N.of_nat n * 65536)) with 0 by (destruct (N.of_nat n * 65536); reflexivity). eapply even_carrier; eauto.
  Qed.

  Lemma nth_dup {A} (l1 l2 l3 : list A) a : nth_error (l1 ++ a :: l2 ++ a :: l3) (List.length l1) = Some a /\
    nth_error (l1 ++ a :: l2 ++ a :: l3) (List.length l1 + S (List.length l2)) = Some a.
  Proof.
    split; rewrite nth_error_app2 by lia.
    - rewrite Nat.sub_diag. reflexivity.
    - replace (List.length l1 + S (List.length l2) - List.length l1)%nat with (S (List.length l2)) by lia. cbn [nth_error].
      rewrite nth_error_app2 by lia. rewrite Nat.sub_diag. reflexivity.
  Qed.
  (** More documents with a blot than there are blots. *)
  Theorem crowded ss dk wss : history u c ss dk -> docs_fit (all_docs ss) -> words_of (word_char u) (all_docs ss) wss ->
    Forall (fun ws => (k * m < List.length ws)%nat) wss -> N.of_nat n * 65536 < nlen wss ->
    exists ix, open_index sorted dk = Ok ix /\ exists q d1 d2, 0 < d1 < d2 /\ d2 <= nlen (all_docs ss) /\
    forall grow fuel, (List.length (all_docs ss) < fuel)%nat ->
    exists ds, query_get grow ix fuel q None = Ok ds /\ In (place_of (all_docs ss) d1) (docs_keys ds) /\ In (place_of (all_docs ss) d2) (docs_keys ds).
  Proof.
    intros Hi Fit Ww Fl Big. destruct (query_exact u c k m n sorted F Hs ss dk wss Hi Fit Ww) as (ix & Eo & Q). exists ix. split; [exact Eo|].
    set (space := N.of_nat n * 65536) in *. assert (Sp : 0 < space). { pose proof (co_n _ _ _ _ (cu_ok _ _ _ _ F)). unfold space. lia. }
    set (f := fun ws => hd 0 (spec_blots (word_hash u) k m ws) mod space).
    assert (D : ~ NoDup (map f wss)).
    { intros N. assert (I : incl (map f wss) (map N.of_nat (seq 0 (N.to_nat space)))).
      { intros q Hq. apply in_map_iff in Hq. destruct Hq as (ws & <- & _). apply in_map_iff. exists (N.to_nat (f ws)). split; [apply N2Nat.id|].
        apply in_seq. pose proof (N.mod_lt (hd 0 (spec_blots (word_hash u) k m ws)) space ltac:(lia)). unfold f. lia. }
      pose proof (NoDup_incl_length N I) as L. rewrite !map_length, seq_length in L. unfold nlen in Big. lia. }
    apply not_nodup in D.
    destruct D as (q & l1 & l2 & l3 & E). destruct (nth_dup l1 l2 l3 q) as [N1 N2]. rewrite <- E in N1, N2.
    exists q, (N.of_nat (List.length l1) + 1), (N.of_nat (List.length l1 + S (List.length l2)) + 1). split; [lia|].
    pose proof (words_of_len _ _ _ Ww) as Lw. assert (L : List.length (map f wss) = (List.length l1 + S (List.length l2 + S (List.length l3)))%nat).
    { rewrite E, app_length. cbn [List.length]. rewrite app_length. reflexivity. }
    rewrite map_length in L. split; [unfold nlen; lia|]. intros grow fuel Lf. destruct (Q grow q fuel Lf) as (ds & Eg & K). exists ds. split; [exact Eg|]. rewrite K.
    assert (Qs : q < space). { apply nth_error_In, in_map_iff in N1. destruct N1 as (ws & <- & _). apply N.mod_lt. lia. }
    fold space. rewrite N.mod_small by exact Qs.
    assert (C : forall i, nth_error (map f wss) i = Some q -> In (N.of_nat i + 1) (carriers (word_hash u) k m n 0 wss q)).
    { intros i Ei. rewrite nth_error_map in Ei. destruct (nth_error wss i) as [ws|] eqn:Ew; [|discriminate]. cbn [option_map] in Ei. injection Ei as Ei.
      replace (N.of_nat i + 1) with (0 + 1 + N.of_nat i) by lia. eapply carriers_has; [exact Ew|].
      assert (Lws : (k * m < List.length ws)%nat) by (rewrite Forall_forall in Fl; apply Fl; eapply nth_error_In, Ew).
      unfold has_blot. apply existsb_exists. exists (hd 0 (spec_blots (word_hash u) k m ws)). split; [|apply N.eqb_eq; exact Ei].
      unfold spec_blots. destruct (List.length ws - k * m)%nat as [|r] eqn:Er; [lia|]. left. reflexivity. }
    split; apply in_map, C; assumption.
  Qed.
End A.

(** Two documents without a common word. *)
Definition apart1 : bytes := bs "one to to be be or or not not that that.".
Definition apart2 : bytes := bs "two we we are are such such stuff stuff as as.".
Definition apart_words1 : list bytes := map bs ["one"; "to"; "to"; "be"; "be"; "or"; "or"; "not"; "not"; "that"; "that"]%string.
Definition apart_words2 : list bytes := map bs ["two"; "we"; "we"; "are"; "are"; "such"; "such"; "stuff"; "stuff"; "as"; "as"]%string.
Definition apart_docs : list (bytes * doc) := [(bs "/", MkDoc (bs "a") 0 40 apart1); (bs "/", MkDoc (bs "b") 0 46 apart2)].
Lemma apart_fit : docs_fit apart_docs.
Proof.
  constructor; [|vm_compute; reflexivity|vm_compute; reflexivity].
  repeat (constructor; [split; [exists []; reflexivity|split; vm_compute; reflexivity]|]). constructor.
Qed.
Lemma apart_are u : words_of (word_char u) apart_docs [apart_words1; apart_words2].
Proof.
  assert (X : forall s ws, forallb (fun c => c <? 128) s = true -> words (word_char u) (removelast s) = ws ->
    doc_words (word_char u) s ws).
  { intros s ws Hs E. left. exists s. split; [|symmetry; exact E]. apply ascii_text, Hs. }
  unfold apart_docs. repeat (constructor; [cbn [snd d_dat]; apply X; vm_compute; reflexivity|]). constructor.
Qed.
Lemma apart_carriers u : carriers (word_hash u) 1 10 2 0 [apart_words1; apart_words2] 0 = [1; 2].
Proof. vm_compute. reflexivity. Qed.
