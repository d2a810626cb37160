(** The extract command: C46. *)
From Coq Require Import String Sorting.Sorted.
From Verif Require Import Model.Base Model.Utf8 Model.Token Model.Blotter Model.Conc Model.Config Model.Index Model.Query Model.Session Model.Extract.
From Verif Require Import Spec.Text Spec.Fingerprint Spec.Configs Spec.Reading Spec.Querying Spec.History Spec.Str.
From Verif Require Import Proof.Tactics Proof.TokenP Proof.BlotterP Proof.QueryP Proof.QueryP2 Proof.QueryW Proof.SessionP Proof.SessionP2 Proof.ExtractP.
Local Open Scope N_scope.
Local Open Scope list_scope.

(** C46: "The extract command prints exactly the blots with at least two and at least the
    threshold number of documents, most frequent first, then stops without error."

    For any threshold [T] (its computation in floating point is the subject of C66) and both
    output formats.  [k] and [calls] bound the rounds of each call of Next and the number of
    calls; with too small a bound the model says Loop, never anything else. *)
Theorem C46_extract_prints_the_frequent : forall grow ix n content place, index_ok ix n content place ->
  forall fuel, (forall s b, (s < n)%nat -> (b < num_slots)%nat -> (List.length (content s b) < fuel)%nat) ->
  forall json T, exists k calls out,
    extract grow ix json T fuel k calls = Ok out /\
    (forall k' calls', extract grow ix json T fuel k' calls' = Loop \/ extract grow ix json T fuel k' calls' = Ok out) /\
    NoDup (map be_blot out) /\
    (forall blot, In blot (map be_blot out) <->
       blot < N.of_nat n * 65536 /\ (2 <= List.length (at_blot n content blot))%nat /\ (T <= Z.of_nat (List.length (at_blot n content blot)))%Z) /\
    (forall e, In e out -> docs_keys (be_docs e) = map place (at_blot n content (be_blot e))) /\
    StronglySorted (fun e e' => (List.length (docs_keys (be_docs e')) <= List.length (docs_keys (be_docs e)))%nat) out.
Proof.
  intros grow ix n content place I fuel Hf js T. destruct (extract_prints grow ix place n content I fuel Hf js T) as (k & calls & out & E & P1 & P2 & P3 & P4).
  exists k, calls, out. split; [exact E|]. split; [intros k' calls'; exact (extract_any _ _ _ _ _ _ _ _ _ _ _ _ E)|].
  split; [exact P1|]. split; [|auto]. intros blot. rewrite P2. unfold duplicated. tauto.
Qed.
Print Assumptions C46_extract_prints_the_frequent.
(** For every index made by any history of sessions: the blots with that many documents
    in the history. *)
Theorem C46_on_histories : forall u c k m n sorted, cfg_full c k m n -> sorts sorted ->
  forall ss dk wss, history u c ss dk -> docs_fit (all_docs ss) -> words_of (word_char u) (all_docs ss) wss ->
  exists ix, open_index sorted dk = Ok ix /\
  forall grow fuel, (List.length (all_docs ss) < fuel)%nat -> forall json T, exists k' calls out,
    extract grow ix json T fuel k' calls = Ok out /\ NoDup (map be_blot out) /\
    (forall blot, In blot (map be_blot out) <-> blot < N.of_nat n * 65536 /\
       (2 <= List.length (carriers (word_hash u) k m n 0 wss blot))%nat /\ (T <= Z.of_nat (List.length (carriers (word_hash u) k m n 0 wss blot)))%Z) /\
    (forall e, In e out -> docs_keys (be_docs e) = map (place_of (all_docs ss)) (carriers (word_hash u) k m n 0 wss (be_blot e))) /\
    StronglySorted (fun e e' => (List.length (docs_keys (be_docs e')) <= List.length (docs_keys (be_docs e)))%nat) out.
Proof.
  intros u c k m n sorted F S ss dk wss Hi Fit Ww. destruct (opened u c k m n sorted F S ss dk wss Hi Fit Ww) as (ix & E & I).
  exists ix. split; [exact E|]. intros grow fuel Lf js T. pose proof (io_pos _ _ _ _ I) as Hn. pose proof (words_of_len _ _ _ Ww) as Lw.
  assert (forall blot, at_blot n (held (word_hash u) k m n wss) blot = carriers (word_hash u) k m n 0 wss (blot mod (N.of_nat n * 65536))) as At.
  { intros blot. unfold at_blot, held. rewrite <- blot_slot by exact Hn. reflexivity. }
  destruct (C46_extract_prints_the_frequent grow ix n _ _ I fuel) with (json := js) (T := T) as (k' & calls & out & X & _ & P1 & P2 & P3 & P4).
  { intros s b _ _. unfold held. pose proof (carriers_len (word_hash u) k m n (N.of_nat b * N.of_nat n + N.of_nat s) wss 0). lia. }
  exists k', calls, out. split; [exact X|]. split; [exact P1|].
  assert (forall blot, blot < N.of_nat n * 65536 -> at_blot n (held (word_hash u) k m n wss) blot = carriers (word_hash u) k m n 0 wss blot) as At2.
  { intros blot L. rewrite At, N.mod_small by exact L. reflexivity. }
  split; [|split; [|exact P4]].
  - intros blot. rewrite P2. split; intros (A & B & C); rewrite At2 in * by exact A; auto.
  - intros e He. rewrite (P3 e He), At2; [reflexivity|]. apply (in_map be_blot) in He. apply P2 in He. apply He.
Qed.
Print Assumptions C46_on_histories.
(** In the five documents of [wit_docs] one blot has three documents and one has two: with
    threshold three only the first is printed. *)
Example C46_example : forall u, cfg_full wit_config 1 10 2 /\ docs_fit (all_docs [wit_docs]) /\ words_of (word_char u) (all_docs [wit_docs]) wit_wss /\
  List.length (carriers (word_hash u) 1 10 2 0 wit_wss wit_blot1) = 3%nat /\ List.length (carriers (word_hash u) 1 10 2 0 wit_wss wit_blot2) = 2%nat.
Proof.
  intros u. split; [exact wit_full|]. split; [exact wit_fit|]. split; [exact (wit_words u)|]. rewrite !wit_carriers. split; vm_compute; reflexivity.
Qed.
