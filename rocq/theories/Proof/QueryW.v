(** An index on which a limited query misses a duplicated blot. *)
From Coq Require Import String.
From Verif Require Import Model.Base Model.Utf8 Model.Token Model.Blotter Model.Post Model.Poster Model.Shatter Model.Shard Model.Dmd Model.Fnames Model.Conc Model.Config Model.Run Model.Index Model.Query Model.Session.
From Verif Require Import Spec.Text Spec.Fingerprint Spec.Configs Spec.Posting Spec.Postings Spec.Paths Spec.Reading Spec.Querying Spec.History Spec.Str.
From Verif Require Import Proof.Tactics Proof.TokenP Proof.BlotterP Proof.BlotsP Proof.QueryP Proof.QueryP2 Proof.QueryP3 Proof.SessionP Proof.SessionP2.
Local Open Scope N_scope.
Local Open Scope list_scope.

Definition wit_config : config := MkConfig (bs "/x") 10 2 2 16384 words_simple default_blot_config.
Definition wit_text1 : bytes := bs "x a b c d e f g h i k.".
Definition wit_text2 : bytes := bs "x a b c d e f g h i j.".
Definition wit_words1 : list bytes := [bs "x"; bs "a"; bs "b"; bs "c"; bs "d"; bs "e"; bs "f"; bs "g"; bs "h"; bs "i"; bs "k"].
Definition wit_words2 : list bytes := [bs "x"; bs "a"; bs "b"; bs "c"; bs "d"; bs "e"; bs "f"; bs "g"; bs "h"; bs "i"; bs "j"].
Definition wit_doc (name : string) (text : bytes) : bytes * doc := (bs "/", MkDoc (bs name) 0 22 text).
(** One session, five documents: three times one text and twice another. *)
Definition wit_docs : list (bytes * doc) :=
  [wit_doc "1" wit_text1; wit_doc "2" wit_text1; wit_doc "3" wit_text1; wit_doc "4" wit_text2; wit_doc "5" wit_text2].
Definition wit_wss : list (list bytes) := [wit_words1; wit_words1; wit_words1; wit_words2; wit_words2].

Lemma wit_full : cfg_full wit_config 1 10 2.
Proof. constructor; [constructor; try reflexivity; lia|reflexivity|cbn; lia]. Qed.
Lemma wit_default : default_config (bs "/") (bs "x") = Ok wit_config.
Proof. vm_compute. reflexivity. Qed.
Lemma wit_fit : docs_fit wit_docs.
Proof.
  constructor; [|vm_compute; reflexivity|vm_compute; reflexivity].
  repeat (constructor; [split; [exists []; reflexivity|split; vm_compute; reflexivity]|]). constructor.
Qed.
Lemma wit_words u : words_of (word_char u) wit_docs wit_wss.
Proof.
  assert (X : forall s ws, forallb (fun c => c <? 128) s = true -> words (word_char u) (removelast s) = ws ->
    doc_words (word_char u) s ws).
  { intros s ws Hs E. left. exists s. split; [|symmetry; exact E]. apply ascii_text, Hs. }
  unfold wit_docs, wit_wss. repeat (constructor; [cbn [snd wit_doc d_dat]; apply X; vm_compute; reflexivity|]). constructor.
Qed.
Definition wit_blot1 : N := Eval vm_compute in (xors (map fnv32 (tl wit_words1))) mod 131072.
Definition wit_blot2 : N := Eval vm_compute in (xors (map fnv32 (tl wit_words2))) mod 131072.
Lemma wit_has1 u q : has_blot (word_hash u) 1 10 2 wit_words1 q = (wit_blot1 =? q).
Proof.
  unfold has_blot. assert (E : map (fun b => b mod (N.of_nat 2 * 65536)) (spec_blots (word_hash u) 1 10 wit_words1) = [wit_blot1]) by (vm_compute; reflexivity).
  destruct (spec_blots (word_hash u) 1 10 wit_words1) as [|b [|? ?]]; try discriminate. cbn [map existsb] in *.
  assert (b mod (N.of_nat 2 * 65536) = wit_blot1) as -> by congruence. apply orb_false_r.
Qed.
Lemma wit_has2 u q : has_blot (word_hash u) 1 10 2 wit_words2 q = (wit_blot2 =? q).
Proof.
  unfold has_blot. assert (E : map (fun b => b mod (N.of_nat 2 * 65536)) (spec_blots (word_hash u) 1 10 wit_words2) = [wit_blot2]) by (vm_compute; reflexivity).
  destruct (spec_blots (word_hash u) 1 10 wit_words2) as [|b [|? ?]]; try discriminate. cbn [map existsb] in *.
  assert (b mod (N.of_nat 2 * 65536) = wit_blot2) as -> by congruence. apply orb_false_r.
Qed.
Lemma wit_carriers u q : carriers (word_hash u) 1 10 2 0 wit_wss q =
  if wit_blot1 =? q then [1; 2; 3] else if wit_blot2 =? q then [4; 5] else [].
Proof.
  unfold wit_wss. cbn [carriers]. rewrite !wit_has1, !wit_has2.
  destruct (N.eqb_spec wit_blot1 q) as [E1|_], (N.eqb_spec wit_blot2 q) as [E2|_]; try reflexivity.
  exfalso. rewrite <- E2 in E1. discriminate E1.
Qed.

Theorem limited_query_misses : exists c docs,
  default_config (bs "/") (bs "x") = Ok c /\ cfg_full c 1 10 2 /\ docs_fit docs /\
  forall u sorted grow fuel, sorts sorted -> (5 < fuel)%nat ->
    (exists dk, history u c [docs] dk) /\
    forall dk, history u c [docs] dk ->
    exists ix content place blot, open_index sorted dk = Ok ix /\ index_ok ix 2 content place /\ duplicated 2 content blot /\
      (exists out, listing grow ix fuel room_for_two (start_query ix) out) /\
      forall out, listing grow ix fuel room_for_two (start_query ix) out -> ~ In blot (map be_blot out).
Proof.
  exists wit_config, wit_docs. split; [exact wit_default|]. split; [exact wit_full|]. split; [exact wit_fit|].
  intros u sorted grow fuel Hs Hf.
  assert (Ed : all_docs [wit_docs] = wit_docs) by reflexivity.
  split.
  { destruct wit_full as [A B C]. apply (history_exists u wit_config 1 10 2 A B C); [discriminate|reflexivity|exact wit_fit]. }
  intros dk Hi. destruct (opened u wit_config 1 10 2 sorted wit_full Hs [wit_docs] dk wit_wss Hi wit_fit (wit_words u)) as (ix & E & I).
  exists ix, (held (word_hash u) 1 10 2 wit_wss), (place_of wit_docs), wit_blot2. split; [exact E|]. split; [exact I|].
  assert (B0 : N.of_nat (N.to_nat (wit_blot1 / 2)) * 2 = wit_blot1) by (vm_compute; reflexivity).
  assert (B1 : N.of_nat (N.to_nat (wit_blot2 / 2)) * 2 + 1 = wit_blot2) by (vm_compute; reflexivity).
  split.
  { split; [vm_compute; reflexivity|]. unfold at_blot, held. rewrite !N2Nat.id. rewrite wit_carriers.
    change (wit_blot2 / N.of_nat 2 mod 65536 * N.of_nat 2 + wit_blot2 mod N.of_nat 2) with wit_blot2. change (wit_blot1 =? wit_blot2) with false; rewrite N.eqb_refl; apply le_n. }
  destruct (second_missed grow ix (place_of wit_docs) (held (word_hash u) 1 10 2 wit_wss) fuel I (N.to_nat (wit_blot1 / 2)) (N.to_nat (wit_blot2 / 2)) 1 2 3 4 5) as [X Y]; auto.
  - assert (wit_blot1 / 2 < 65536) by (vm_compute; reflexivity). unfold num_slots. lia.
  - assert (wit_blot2 / 2 < 65536) by (vm_compute; reflexivity). unfold num_slots. lia.
  - intros b Lb Nb. unfold held. change (N.of_nat 2) with 2. change (N.of_nat 0) with 0. rewrite wit_carriers.
    destruct (N.eqb_spec wit_blot1 (N.of_nat b * 2 + 0)) as [A|_]; [exfalso; lia|].
    destruct (N.eqb_spec wit_blot2 (N.of_nat b * 2 + 0)) as [A|_]; [exfalso; lia|reflexivity].
  - intros b Lb Nb. unfold held. change (N.of_nat 2) with 2. change (N.of_nat 1) with 1. rewrite wit_carriers.
    destruct (N.eqb_spec wit_blot1 (N.of_nat b * 2 + 1)) as [A|_]; [exfalso; lia|].
    destruct (N.eqb_spec wit_blot2 (N.of_nat b * 2 + 1)) as [A|_]; [exfalso; lia|reflexivity].
  - split; [exact X|]. intros out L C. rewrite (Y out L), B0 in C. destruct C as [C|[]]. discriminate C.
Qed.
