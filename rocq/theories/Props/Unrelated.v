(** C88: documents that a query returns for one blot have a word in common. *)
From Coq Require Import String Permutation Lia.
From Verif Require Import Model.Base Model.Utf8 Model.Token Model.Blotter Model.Shatter Model.Conc Model.Config Model.Run Model.Index Model.Query Model.Session Model.Crash.
From Verif Require Import Spec.Text Spec.Fingerprint Spec.Configs Spec.Paths Spec.Reading Spec.Querying Spec.History Spec.Live Spec.Str.
From Verif Require Import Proof.SessionP Proof.SessionP2 Proof.QueryW Proof.UnrelatedP.
Local Open Scope N_scope.
Local Open Scope list_scope.

(** C88 fails: the hashes of the words of a window are combined by exclusive or
    (blotter/circ.go:42-54), so that words that occur an even number of times in it cancel.
    All documents that have a window [l] of such words, at whatever place [i] after the
    first, are listed under blot 0, and so with each other. *)
Theorem C88_even_refuted : forall u c k m n sorted, cfg_full c k m n -> sorts sorted ->
  forall ss dk, history u c ss dk -> docs_fit (all_docs ss) ->
  exists ix, open_index sorted dk = Ok ix /\ forall grow fuel, (List.length (all_docs ss) < fuel)%nat ->
  exists ds, query_get grow ix fuel 0 None = Ok ds /\
    forall d cwd x ws i l p, 0 < d -> doc_at (all_docs ss) d (cwd, x) -> doc_words (word_char u) (d_dat x) ws -> (k * m <= i < List.length ws)%nat ->
      recent k m (firstn (S i) ws) = map Some l -> Permutation l (p ++ p) -> In (place_of (all_docs ss) d) (docs_keys ds).
Proof. exact even_listed. Qed.
(** A session of two documents without a common word, in the default configuration. *)
Theorem C88_apart_refuted : exists c docs ws1 ws2, default_config (bs "/") (bs "x") = Ok c /\ docs_fit docs /\
  (forall w, In w ws1 -> ~ In w ws2) /\
  forall u sorted, sorts sorted -> words_of (word_char u) docs [ws1; ws2] /\ exists dk ix, history u c [docs] dk /\ open_index sorted dk = Ok ix /\
  forall grow fuel, (2 < fuel)%nat -> exists ds, query_get grow ix fuel 0 None = Ok ds /\ docs_keys ds = map (place_of docs) [1; 2].
Proof.
  exists wit_config, apart_docs, apart_words1, apart_words2. split; [exact wit_default|]. split; [exact apart_fit|]. split.
  { intros w Hw Hw'. vm_compute in Hw, Hw'. 
    repeat (destruct Hw as [<-|Hw]; [repeat (destruct Hw' as [A|Hw']; [discriminate A|]); destruct Hw'|]). destruct Hw. }
  intros u sorted Hs. split; [exact (apart_are u)|]. destruct wit_full as [O Hn Hfl] eqn:EF.
  destruct (history_exists u wit_config 1 10 2 O Hn Hfl [apart_docs]) as [dk Hi]; [discriminate|reflexivity|exact apart_fit|].
  destruct (query_exact u wit_config 1 10 2 sorted wit_full Hs [apart_docs] dk [apart_words1; apart_words2] Hi apart_fit (apart_are u)) as (ix & Eo & Q).
  exists dk, ix. split; [exact Hi|]. split; [exact Eo|]. intros grow fuel Lf. destruct (Q grow 0 fuel ltac:(cbn; lia)) as (ds & E & K).
  exists ds. split; [exact E|]. rewrite K. change (0 mod (N.of_nat 2 * 65536)) with 0. rewrite apart_carriers. reflexivity.
Qed.
(** And whatever the hash is: with more documents that have a blot than there are blots,
    two different ones are listed together. *)
Theorem C88_crowded_refuted : forall u c k m n sorted, cfg_full c k m n -> sorts sorted ->
  forall ss dk wss, history u c ss dk -> docs_fit (all_docs ss) -> words_of (word_char u) (all_docs ss) wss ->
  Forall (fun ws => (k * m < List.length ws)%nat) wss -> N.of_nat n * 65536 < nlen wss ->
  exists ix, open_index sorted dk = Ok ix /\ exists q d1 d2, 0 < d1 < d2 /\ d2 <= nlen (all_docs ss) /\
  forall grow fuel, (List.length (all_docs ss) < fuel)%nat ->
  exists ds, query_get grow ix fuel q None = Ok ds /\ In (place_of (all_docs ss) d1) (docs_keys ds) /\ In (place_of (all_docs ss) d2) (docs_keys ds).
Proof. exact crowded. Qed.
Print Assumptions C88_even_refuted.
Print Assumptions C88_apart_refuted.
Print Assumptions C88_crowded_refuted.

(** Both texts of the session have such a window; and numbers of documents above that of the
    blots are allowed. *)
Example C88_example : (exists l p, recent 1 10 (firstn 11 apart_words1) = map Some l /\ Permutation l (p ++ p)) /\
  (exists l p, recent 1 10 (firstn 11 apart_words2) = map Some l /\ Permutation l (p ++ p)) /\ N.of_nat 2 * 65536 < 2 ^ 32 - 1.
Proof.
  assert (X : forall a b c d e : bytes, Permutation [a; a; b; b; c; c; d; d; e; e] ([a; b; c; d; e] ++ [a; b; c; d; e])).
  { intros. cbn [app]. 
    apply perm_skip. etransitivity; [|apply (Permutation_middle [b; c; d; e] [b; c; d; e] a)]. apply perm_skip.
    cbn [app]. apply perm_skip. etransitivity; [|apply (Permutation_middle [c; d; e] [c; d; e] b)]. apply perm_skip.
    cbn [app]. apply perm_skip. etransitivity; [|apply (Permutation_middle [d; e] [d; e] c)]. apply perm_skip.
    cbn [app]. apply perm_skip. etransitivity; [|apply (Permutation_middle [e] [e] d)]. apply perm_skip. reflexivity. }
  split; [|split; [|reflexivity]].
  - exists (rev (tl apart_words1)). eexists. split; [vm_compute; reflexivity|apply X].
  - exists (rev (tl apart_words2)). eexists. split; [vm_compute; reflexivity|apply X].
Qed.
