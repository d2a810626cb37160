(** Extract's output on the index of a history, and witnesses. *)
From Coq Require Import String Sorting.Sorted.
From Verif Require Import Model.Base Model.Utf8 Model.Token Model.Blotter Model.Conc Model.Config Model.Index Model.Query Model.Session Model.Extract Model.Cmd Model.Json Model.Output.
From Verif Require Import Spec.Text Spec.Fingerprint Spec.Configs Spec.Paths Spec.Reading Spec.Querying Spec.History Spec.Str Spec.Printed.
From Verif Require Import Proof.Tactics Proof.TokenP Proof.BlotterP Proof.BlotsP Proof.QueryP Proof.QueryW Proof.SessionP Proof.SessionP2 Proof.ExtractP Proof.JsonP Proof.OutputP.
From Verif Require Import Props.Extract.
Local Open Scope N_scope.
Local Open Scope list_scope.

Lemma sorted_map {A B} (f : A -> B) (R : A -> A -> Prop) (R' : B -> B -> Prop) l : (forall a b, R a b -> R' (f a) (f b)) -> StronglySorted R l -> StronglySorted R' (map f l).
Proof.
  intros X. induction 1 as [|a l S IH F]; [constructor|]. cbn [map]. constructor; [exact IH|]. rewrite Forall_map. eapply Forall_impl; [|exact F]. auto.
Qed.
Lemma place_32 docs d : docs_fit docs -> in_32 (place_of docs d).
Proof.
  intros [F _ _]. unfold place_of. destruct (nth_error docs (N.to_nat (d - 1))) as [[cwd x]|] eqn:E; [|split; reflexivity].
  apply nth_error_In in E. rewrite Forall_forall in F. destruct (F _ E) as (_ & A & B). split; assumption.
Qed.
Lemma place_path (P : bytes -> Prop) docs d : P [] -> paths_are P docs -> P (fst (fst (place_of docs d))).
Proof.
  intros P0 F. unfold place_of. destruct (nth_error docs (N.to_nat (d - 1))) as [[cwd x]|] eqn:E; [|exact P0].
  apply nth_error_In in E. unfold paths_are in F. rewrite Forall_forall in F. apply (F _ E).
Qed.

Section Printed.
  Context (u : unicode) (c : config) (k m n : nat) (sorted : list N -> list nat) (F : cfg_full c k m n) (S : sorts sorted).
  Context (ss : list (list (bytes * doc))) (dk : disk) (wss : list (list bytes)).
  Context (Hi : history u c ss dk) (Fit : docs_fit (all_docs ss)) (Ww : words_of (word_char u) (all_docs ss) wss).
  Lemma prints_frequent : exists ix, open_index sorted dk = Ok ix /\
    forall grow fuel, (List.length (all_docs ss) < fuel)%nat -> forall json T, exists k' calls out,
      extract grow ix json T fuel k' calls = Ok out /\ frequent (word_hash u) k m n (all_docs ss) wss T (map entry_of out) /\
      Forall (fun e => be_docs e <> None /\ be_blot e < 2 ^ 32 /\ Forall in_32 (docs_keys (be_docs e))) out /\
      (forall P : bytes -> Prop, P [] -> paths_are P (all_docs ss) -> Forall (fun e => Forall (fun key => P (fst (fst key))) (docs_keys (be_docs e))) out).
  Proof.
    destruct (C46_on_histories u c k m n sorted F S ss dk wss Hi Fit Ww) as (ix & E & X). exists ix. split; [exact E|].
    intros grow fuel Lf json T. destruct (X grow fuel Lf json T) as (k' & calls & out & Eo & ND & B & K & So).
    exists k', calls, out. split; [exact Eo|]. split; [|split].
    - split; [rewrite map_map; exact ND|]. split.
      + intros b ds. rewrite in_map_iff. split.
        * intros (e & Ee & He). unfold entry_of in Ee. injection Ee as <- <-. pose proof (proj1 (B (be_blot e)) (in_map be_blot _ _ He)) as (B1 & B2 & B3).
          split; [exact B1|]. split; [exact B2|]. split; [exact B3|]. apply K, He.
        * intros (B1 & B2 & B3 & ->). assert (Hb : In b (map be_blot out)) by (apply B; auto). apply in_map_iff in Hb. destruct Hb as (e & <- & He).
          exists e. split; [|exact He]. unfold entry_of. rewrite (K e He). reflexivity.
      + eapply sorted_map; [|exact So]. intros a b L. exact L.
    - apply Forall_forall. intros e He. pose proof (proj1 (B (be_blot e)) (in_map be_blot _ _ He)) as (B1 & B2 & B3). split; [|split].
      + intros En. pose proof (K e He) as Ke. rewrite En in Ke. apply (f_equal (@List.length _)) in Ke. rewrite map_length in Ke. cbn in Ke. lia.
      + destruct F as [_ Hn _]. change (2 ^ 32) with (65536 * 65536). nia.
      + rewrite (K e He). rewrite Forall_map. apply Forall_forall. intros d _. apply place_32, Fit.
    - intros P P0 FP. apply Forall_forall. intros e He. rewrite (K e He). rewrite Forall_map. apply Forall_forall. intros d _. apply place_path; assumption.
  Qed.
End Printed.

(** Only the blots and the places matter. *)
Lemma same_text out : Forall (fun e => be_docs e <> None) out -> forall out', Forall (fun e => be_docs e <> None) out' ->
  map entry_of out = map entry_of out' -> forall json only, extract_text json only out = extract_text json only out'.
Proof.
  intros F out' F' E json only. unfold extract_text. f_equal. revert out' F' E. induction F as [|e out H F IH]; intros [|e' out'] F' E; try discriminate; [reflexivity|].
  inversion F'; subst. cbn [map] in *. injection E as E1 E2. rewrite (IH out') by assumption. f_equal. unfold entry_of in E1.
  assert (be_blot e = be_blot e') as Eb by congruence. assert (docs_keys (be_docs e) = docs_keys (be_docs e')) as Ed by congruence.
  destruct json.
  - unfold json_entry, json_docs. rewrite Eb. rewrite !keys_of_docs, Ed. destruct (be_docs e); [|congruence]. destruct (be_docs e'); [reflexivity|congruence].
  - unfold plain_entry. rewrite Eb, !keys_of_docs, Ed. reflexivity.
Qed.

Lemma frequent_inj H k m n docs wss T es es' b ds : frequent H k m n docs wss T es -> es' = [(b, ds)] ->
  (forall b' ds', (b' < N.of_nat n * 65536 /\ (2 <= List.length (carriers H k m n 0 wss b'))%nat /\
     (T <= Z.of_nat (List.length (carriers H k m n 0 wss b')))%Z /\ ds' = map (place_of docs) (carriers H k m n 0 wss b')) <-> (b' = b /\ ds' = ds)) -> es = es'.
Proof.
  intros (ND & I & _) -> X. assert (Y : forall e, In e es -> e = (b, ds)).
  { intros [b' ds'] He. apply I, X in He. destruct He as [-> ->]. reflexivity. }
  assert (Z : In (b, ds) es) by (apply I, X; auto).
  destruct es as [|e1 [|e2 es]]; [destruct Z| |].
  - rewrite (Y e1 (or_introl eq_refl)). reflexivity.
  - exfalso. rewrite (Y e1 (or_introl eq_refl)), (Y e2 (or_intror (or_introl eq_refl))) in ND. cbn [map fst] in ND. inversion ND as [|? ? N0 _]. apply N0. left. reflexivity.
Qed.

(** Copies of one text under the given names. *)
Definition copies (names : list bytes) : list (bytes * doc) := map (fun p => (bs "/", MkDoc p 0 22 wit_text1)) names.
Definition copies_wss (names : list bytes) : list (list bytes) := map (fun _ => wit_words1) names.
Lemma copies_words u names : words_of (word_char u) (copies names) (copies_wss names).
Proof.
  assert (X : doc_words (word_char u) wit_text1 wit_words1).
  { left. exists wit_text1. split; [|vm_compute; reflexivity]. apply ascii_text. vm_compute. reflexivity. }
  unfold copies, copies_wss. induction names as [|p names IH]; [constructor|]. cbn [map]. constructor; [exact X|exact IH].
Qed.
Lemma copies_carriers u names : forall last q, carriers (word_hash u) 1 10 2 last (copies_wss names) q =
  if wit_blot1 =? q then map (fun i => last + N.of_nat i) (seq 1 (List.length names)) else [].
Proof.
  unfold copies_wss. induction names as [|p names IH]; intros last q; [destruct (wit_blot1 =? q); reflexivity|]. cbn [map carriers List.length seq].
  rewrite wit_has1, IH. destruct (wit_blot1 =? q); [|reflexivity]. cbn [app]. f_equal. rewrite <- (seq_shift _ 1), map_map. apply map_ext. intros i. lia.
Qed.
Lemma copies_printed u sorted names dk : sorts sorted -> docs_fit (copies names) -> (2 <= List.length names)%nat -> history u wit_config [copies names] dk ->
  exists ix, open_index sorted dk = Ok ix /\ forall grow fuel json only T, (List.length names < fuel)%nat -> (T <= 2)%Z -> exists k' calls out,
    extract grow ix json T fuel k' calls = Ok out /\
    extract_text json only out = extract_text json only [MkEntry wit_blot1 (Some (List.length names, map (fun p => MkDoc (show_abs (spec_abs (bs "/") p)) 0 22 []) names))].
Proof.
  intros So Fit L2 Hi. assert (Ea : all_docs [copies names] = copies names) by (unfold all_docs; cbn [rev app concat]; apply app_nil_r).
  destruct (prints_frequent u wit_config 1 10 2 sorted wit_full So [copies names] dk (copies_wss names) Hi) as (ix & E & X); [rewrite Ea; exact Fit|rewrite Ea; apply copies_words|].
  exists ix. split; [exact E|]. intros grow fuel json only T Lf LT. rewrite Ea in X.
  destruct (X grow fuel) with (json := json) (T := T) as (k' & calls & out & Eo & Fr & Fo & _); [unfold copies; rewrite map_length; exact Lf|].
  exists k', calls, out. split; [exact Eo|]. apply same_text.
  - eapply Forall_impl; [|exact Fo]. intros e (A & _). exact A.
  - constructor; [discriminate|constructor].
  - eapply frequent_inj; [exact Fr|reflexivity|]. intros b' ds'. rewrite copies_carriers. cbn [entry_of be_blot be_docs].
    assert (Ek : docs_keys (Some (List.length names, map (fun p => MkDoc (show_abs (spec_abs (bs "/") p)) 0 22 []) names)) =
                 map (place_of (copies names)) (map (fun i => 0 + N.of_nat i) (seq 1 (List.length names)))).
    { unfold docs_keys, docs_list. rewrite map_map. unfold place_of.
      rewrite <- (map_length (fun p => MkDoc (show_abs (spec_abs (bs "/") p)) 0 22 []) names) at 1. rewrite firstn_all, map_map. cbn [doc_key d_path d_start d_end].
      unfold doc_key. cbn [d_path d_start d_end]. rewrite <- seq_shift, map_map. clear. 
      assert (Y : forall pre, map (fun x => (show_abs (spec_abs (bs "/") x), 0, 22)) names =
        map (fun x => match nth_error (copies (pre ++ names)) (N.to_nat (0 + N.of_nat (Datatypes.S x) - 1)) with Some (cwd, x0) => (show_abs (spec_abs cwd (d_path x0)), d_start x0, d_end x0) | None => ([], 0, 0) end)
            (seq (List.length pre) (List.length names))).
      { induction names as [|p names IH]; intros pre; [reflexivity|]. cbn [map List.length seq]. f_equal.
        - replace (N.to_nat (0 + N.of_nat (Datatypes.S (List.length pre)) - 1)) with (List.length pre) by lia. unfold copies. rewrite map_app, nth_error_app2 by (rewrite map_length; lia).
          rewrite map_length, Nat.sub_diag. reflexivity.
        - replace (pre ++ p :: names) with ((pre ++ [p]) ++ names) by (rewrite <- app_assoc; reflexivity).
          rewrite (IH (pre ++ [p])). rewrite app_length. cbn [List.length]. rewrite Nat.add_1_r. reflexivity. }
      exact (Y []). }
    destruct (N.eqb_spec wit_blot1 b') as [<-|Ne].
    + unfold entry_of. cbn [be_blot be_docs]. rewrite Ek. split; [intros (_ & _ & _ & ->); auto|]. intros [_ ->]. rewrite map_length, seq_length. split; [vm_compute; reflexivity|]. split; [exact L2|]. split; [lia|reflexivity].
    + cbn [List.length]. split; [intros (_ & A & _); lia|intros [A _]; congruence].
Qed.

Lemma wit_text_paths : paths_are text_path (all_docs [wit_docs]).
Proof.
  assert (X : forallb (fun p => forallb (fun c => c <? 128) (show_abs (spec_abs (fst p) (d_path (snd p))))) (all_docs [wit_docs]) = true) by (vm_compute; reflexivity).
  apply Forall_forall. intros p Hp. rewrite forallb_forall in X. eexists. apply ascii_text, X, Hp.
Qed.
