(** What extract prints: C70, C71. *)
From Coq Require Import String Sorting.Sorted.
From Verif Require Import Model.Base Model.Utf8 Model.Token Model.Blotter Model.Conc Model.Config Model.Index Model.Query Model.Session Model.Extract Model.Cmd Model.Json Model.Output.
From Verif Require Import Spec.Text Spec.Fingerprint Spec.Configs Spec.Paths Spec.Reading Spec.Querying Spec.History Spec.Str Spec.Printed.
From Verif Require Import Proof.Tactics Proof.TokenP Proof.BlotterP Proof.QueryP Proof.QueryW Proof.SessionP Proof.SessionP2 Proof.ExtractP Proof.OutputP Proof.OutputP2.
Local Open Scope N_scope.
Local Open Scope list_scope.

(** C70: "The text printed by extract tells which blots are frequent and which documents have
    them."

    It is a line for every such blot (Spec/Printed), with -b without the documents. *)
Theorem C70_lines : forall u c k m n sorted, cfg_full c k m n -> sorts sorted ->
  forall ss dk wss, history u c ss dk -> docs_fit (all_docs ss) -> words_of (word_char u) (all_docs ss) wss ->
  exists ix, open_index sorted dk = Ok ix /\
  forall grow fuel, (List.length (all_docs ss) < fuel)%nat -> forall T, exists k' calls out es,
    extract grow ix false T fuel k' calls = Ok out /\ frequent (word_hash u) k m n (all_docs ss) wss T es /\
    shows shows_line es (extract_text false false out) /\ shows shows_blot es (extract_text false true out).
Proof.
  intros u c k m n sorted F S ss dk wss Hi Fit Ww. destruct (prints_frequent u c k m n sorted F S ss dk wss Hi Fit Ww) as (ix & E & X).
  exists ix. split; [exact E|]. intros grow fuel Lf T. destruct (X grow fuel Lf false T) as (k' & calls & out & Eo & Fr & Fo & _).
  exists k', calls, out, (map entry_of out). split; [exact Eo|]. split; [exact Fr|]. apply plain_shows. eapply Forall_impl; [|exact Fo]. intros e (_ & A). exact A.
Qed.
(** And the same text is not printed for anything else, if there are no spaces and no ends of
    lines in the paths. *)
Theorem C70_unambiguous_partial : forall H k m n docs wss T es docs' wss' T' es' t,
  paths_are plain_path docs -> paths_are plain_path docs' ->
  frequent H k m n docs wss T es -> frequent H k m n docs' wss' T' es' ->
  shows shows_line es t -> shows shows_line es' t -> es = es'.
Proof.
  assert (X : forall H k m n docs wss T es, paths_are plain_path docs -> frequent H k m n docs wss T es -> Forall plain_entry_ok es).
  { intros H k m n docs wss T es P (_ & I & _). apply Forall_forall. intros [b ds] He. apply I in He. destruct He as (_ & _ & _ & ->).
    unfold plain_entry_ok. cbn [snd]. rewrite Forall_map. apply Forall_forall. intros d _. apply place_path; [split; intros []|exact P]. }
  intros H k m n docs wss T es docs' wss' T' es' t P P' Fr Fr' S S'. eapply lines_unambiguous; eauto.
Qed.
(** With -b the blots can always be read. *)
Theorem C70_blots : forall es es' t, shows shows_blot es t -> shows shows_blot es' t -> map fst es = map fst es'.
Proof. intros es es' t S S'. eapply blots_unambiguous; eassumption. Qed.
(** False otherwise: three documents and two documents, one of them with a space in its path,
    give the same output. *)
Theorem C70_spaces_refuted : exists c docs docs', default_config (bs "/") (bs "x") = Ok c /\ docs_fit docs /\ docs_fit docs' /\
  List.length docs = 3%nat /\ List.length docs' = 2%nat /\
  forall u sorted, sorts sorted -> (exists dk, history u c [docs] dk) /\ (exists dk, history u c [docs'] dk) /\
  forall dk dk', history u c [docs] dk -> history u c [docs'] dk' ->
  exists ix ix', open_index sorted dk = Ok ix /\ open_index sorted dk' = Ok ix' /\
  forall grow fuel T, (3 < fuel)%nat -> (T <= 2)%Z -> exists k calls out k' calls' out',
    extract grow ix false T fuel k calls = Ok out /\ extract grow ix' false T fuel k' calls' = Ok out' /\
    extract_text false false out = extract_text false false out' /\ extract_text false false out <> [].
Proof.
  set (na := [bs "/a"; bs "/b"; bs "/c"]). set (nb := [bs "/a@0:22 /b"; bs "/c"]).
  assert (Fa : docs_fit (copies na)).
  { constructor; [|vm_compute; reflexivity|vm_compute; reflexivity]. repeat (constructor; [split; [exists []; reflexivity|split; vm_compute; reflexivity]|]). constructor. }
  assert (Fb : docs_fit (copies nb)).
  { constructor; [|vm_compute; reflexivity|vm_compute; reflexivity]. repeat (constructor; [split; [exists []; reflexivity|split; vm_compute; reflexivity]|]). constructor. }
  exists wit_config, (copies na), (copies nb). split; [exact wit_default|]. split; [exact Fa|]. split; [exact Fb|]. split; [reflexivity|]. split; [reflexivity|].
  intros u sorted S. destruct wit_full as [A B C].
  split; [apply (history_exists u wit_config 1 10 2 A B C); [discriminate|reflexivity|exact Fa]|].
  split; [apply (history_exists u wit_config 1 10 2 A B C); [discriminate|reflexivity|exact Fb]|].
  intros dk dk' H H'. destruct (copies_printed u sorted na dk S Fa ltac:(cbn; lia) H) as (ix & E & X).
  destruct (copies_printed u sorted nb dk' S Fb ltac:(cbn; lia) H') as (ix' & E' & X').
  exists ix, ix'. split; [exact E|]. split; [exact E'|]. intros grow fuel T Lf LT.
  destruct (X grow fuel false false T Lf LT) as (k & calls & out & Eo & Et). destruct (X' grow fuel false false T ltac:(cbn; lia) LT) as (k' & calls' & out' & Eo' & Et').
  exists k, calls, out, k', calls', out'. split; [exact Eo|]. split; [exact Eo'|]. rewrite Et, Et'. split; [vm_compute; reflexivity|vm_compute; discriminate].
Qed.
Print Assumptions C70_lines.
Print Assumptions C70_unambiguous_partial.
Print Assumptions C70_blots.
Print Assumptions C70_spaces_refuted.
Example C70_example : extract_text false false [MkEntry wit_blot1 (Some (2%nat, [MkDoc (bs "/a b") 0 22 []; MkDoc (bs "/c") 0 22 []; zero_doc]))] =
  bs "a /a b@0:22 /c@0:22" ++ [10].
Proof. vm_compute. reflexivity. Qed.

(** C71: "The output of extract -json is a JSON document with the frequent blots and their
    documents."

    What holds: it is a sequence of such documents, one for every blot, if the paths are UTF-8.
    It is one document if there is just one blot; [json_parse] and [json_stream] are
    json.Unmarshal's and json.Decoder's reading. *)
Theorem C71_stream_partial : forall u c k m n sorted, cfg_full c k m n -> sorts sorted ->
  forall ss dk wss, history u c ss dk -> docs_fit (all_docs ss) -> words_of (word_char u) (all_docs ss) wss -> paths_are text_path (all_docs ss) ->
  exists ix, open_index sorted dk = Ok ix /\
  forall grow fuel, (List.length (all_docs ss) < fuel)%nat -> forall T, exists k' calls out es vs,
    extract grow ix true T fuel k' calls = Ok out /\ frequent (word_hash u) k m n (all_docs ss) wss T es /\ Forall2 value_of es vs /\
    forall only, json_stream (extract_text true only out) = Some vs /\
      json_parse (extract_text true only out) = match vs with [v] => Some v | _ => None end.
Proof.
  intros u c k m n sorted F S ss dk wss Hi Fit Ww Tp. destruct (prints_frequent u c k m n sorted F S ss dk wss Hi Fit Ww) as (ix & E & X).
  exists ix. split; [exact E|]. intros grow fuel Lf T. destruct (X grow fuel Lf true T) as (k' & calls & out & Eo & Fr & Fo & P).
  specialize (P text_path ltac:(exists []; split; [constructor|reflexivity]) Tp).
  destruct (entries_read out) as (vs & F1 & F2).
  { rewrite Forall_forall in *. intros e He. destruct (Fo e He) as (A & B & C). auto. }
  exists k', calls, out, (map entry_of out), vs. split; [exact Eo|]. split; [exact Fr|]. split; [exact F2|]. intros only. unfold extract_text.
  split; [apply stream_reads; [exact F1|lia]|apply two_not_one, F1].
Qed.
(** These values tell all about the blots. *)
Theorem C71_determined : forall es es' vs, Forall2 value_of es vs -> Forall2 value_of es' vs -> es = es'.
Proof.
  induction es as [|e es IH]; intros es' vs F F'; inversion F as [|? v ? vs1 V Fv]; subst; inversion F' as [|e' ? es1 ? V' Fv']; subst; [reflexivity|].
  f_equal; [|eapply IH; eassumption]. inversion V as [b ds b1 ds1 Hb Hd]; subst. inversion V' as [b' ds' b1' ds1' Hb' Hd']; subst.
  rewrite (numeral_value _ decimal_nodup _ _ Hb _ Hb'). f_equal. clear -Hd Hd'. revert ds' Hd'.
  induction Hd as [|d v ds vs D Hd IH]; intros ds' Hd'; inversion Hd' as [|d' ? ds1 ? D' Hd1]; subst; [reflexivity|]. f_equal; [|apply IH, Hd1].
  inversion D as [p s e s' e' Hs He]; subst. inversion D' as [p2 s2 e2 s2' e2' Hs2 He2]; subst.
  rewrite (numeral_value _ decimal_nodup _ _ Hs _ Hs2), (numeral_value _ decimal_nodup _ _ He _ He2). reflexivity.
Qed.
(** False: with two blots the output is not a JSON document, and with none neither (it is
    empty). *)
Theorem C71_not_one_refuted : exists c docs, default_config (bs "/") (bs "x") = Ok c /\ docs_fit docs /\
  forall u sorted, sorts sorted -> (exists dk, history u c [docs] dk) /\ forall dk, history u c [docs] dk ->
  exists ix, open_index sorted dk = Ok ix /\
  forall grow fuel, (List.length docs < fuel)%nat -> forall T, (T <= 2)%Z \/ (3 < T)%Z -> exists k calls out,
    extract grow ix true T fuel k calls = Ok out /\ List.length out = (if (T <=? 2)%Z then 2 else 0)%nat /\ json_parse (extract_text true false out) = None.
Proof.
  exists wit_config, wit_docs. split; [exact wit_default|]. split; [exact wit_fit|]. intros u sorted S.
  split. { destruct wit_full as [A B C]. apply (history_exists u wit_config 1 10 2 A B C); [discriminate|reflexivity|exact wit_fit]. }
  intros dk Hi. destruct (C71_stream_partial u wit_config 1 10 2 sorted wit_full S [wit_docs] dk wit_wss Hi wit_fit (wit_words u)) as (ix & E & X).
  { exact wit_text_paths. }
  exists ix. split; [exact E|]. intros grow fuel Lf T LT. destruct (X grow fuel Lf T) as (k & calls & out & es & vs & Eo & (ND & I & _) & F2 & P).
  exists k, calls, out. split; [exact Eo|]. destruct (P false) as [Ps ->].
  assert (Le : List.length out = List.length vs).
  { destruct (prints_frequent u wit_config 1 10 2 sorted wit_full S [wit_docs] dk wit_wss Hi wit_fit (wit_words u)) as (ix' & E' & Y). rewrite E in E'. injection E' as <-.
    destruct (Y grow fuel Lf true T) as (k2 & calls2 & out2 & Eo2 & _ & Fo & Pp).
    unfold extract in *. destruct (extract_any _ _ _ _ _ _ _ k calls _ _ _ Eo2) as [Z|Z]; [congruence|]. assert (out2 = out) by congruence. subst out2.
    specialize (Pp text_path ltac:(exists []; split; [constructor|reflexivity]) wit_text_paths).
    destruct (entries_read out) as (vs' & F1 & _). { rewrite Forall_forall in *. intros e He. destruct (Fo e He) as (A & B & C). auto. }
    unfold extract_text in Ps. unfold json_stream in Ps. rewrite (stream_reads _ _ F1) in Ps by lia. injection Ps as ->. rewrite <- (Tactics.Forall2_len _ _ _ F1), map_length. reflexivity. }
  assert (Lv : List.length es = List.length vs) by (apply (Tactics.Forall2_len _ _ _ F2)).
  assert (J : forall b, In b (map fst es) <-> (T <= 2)%Z /\ (b = wit_blot1 \/ b = wit_blot2)).
  { intros b. rewrite in_map_iff. split.
    - intros ([b' ds] & <- & He). cbn [fst]. apply I in He. destruct He as (_ & A & B & _). rewrite wit_carriers in *.
      destruct (N.eqb_spec wit_blot1 b') as [<-|N1]; [cbn in B; split; [lia|auto]|]. destruct (N.eqb_spec wit_blot2 b') as [<-|N2]; [cbn in B; split; [lia|auto]|cbn in A; lia].
    - intros [L Hb]. exists (b, map (place_of (all_docs [wit_docs])) (carriers (word_hash u) 1 10 2 0 wit_wss b)). split; [reflexivity|]. apply I.
      rewrite wit_carriers. destruct Hb as [->| ->]; (split; [vm_compute; reflexivity|]); [rewrite N.eqb_refl|change (wit_blot1 =? wit_blot2) with false; rewrite N.eqb_refl]; cbv iota; cbn [List.length]; (split; [lia|]; split; [lia|reflexivity]). }
  rewrite Le, <- Lv. destruct (Z.leb_spec T 2) as [L|L].
  - assert (L2 : List.length (map fst es) = 2%nat).
    { apply Nat.le_antisymm.
      - apply (NoDup_incl_length ND (l' := [wit_blot1; wit_blot2])). intros b Hb. apply J in Hb. destruct Hb as [_ [->| ->]]; cbn; auto.
      - apply (NoDup_incl_length (l := [wit_blot1; wit_blot2])); [constructor; [intros [A|[]]; discriminate A|constructor; [intros []|constructor]]|].
        intros b [<-|[<-|[]]]; apply J; auto. }
    rewrite map_length in L2. split; [exact L2|]. destruct vs as [|? [|? ?]]; cbn in Lv; [reflexivity|lia|reflexivity].
  - assert (es = []) as ->. { destruct es as [|e es]; [reflexivity|]. exfalso. pose proof (proj1 (J (fst e)) (or_introl eq_refl)). lia. }
    split; [reflexivity|]. destruct vs; [reflexivity|discriminate Lv].
Qed.
(** False too: documents with different paths that are not UTF-8 look the same. *)
Theorem C71_bytes_refuted : exists c docs docs', default_config (bs "/") (bs "x") = Ok c /\ docs_fit docs /\ docs_fit docs' /\
  place_of docs 1 <> place_of docs' 1 /\
  forall u sorted, sorts sorted -> (exists dk, history u c [docs] dk) /\ (exists dk, history u c [docs'] dk) /\
  forall dk dk', history u c [docs] dk -> history u c [docs'] dk' ->
  exists ix ix', open_index sorted dk = Ok ix /\ open_index sorted dk' = Ok ix' /\
  forall grow fuel T, (3 < fuel)%nat -> (T <= 2)%Z -> exists k calls out k' calls' out',
    extract grow ix true T fuel k calls = Ok out /\ extract grow ix' true T fuel k' calls' = Ok out' /\
    extract_text true false out = extract_text true false out' /\ extract_text true false out <> [].
Proof.
  set (na := [bs "/a" ++ [233]; bs "/c"]). set (nb := [bs "/a" ++ [232]; bs "/c"]).
  assert (Fa : docs_fit (copies na)).
  { constructor; [|vm_compute; reflexivity|vm_compute; reflexivity]. repeat (constructor; [split; [exists []; reflexivity|split; vm_compute; reflexivity]|]). constructor. }
  assert (Fb : docs_fit (copies nb)).
  { constructor; [|vm_compute; reflexivity|vm_compute; reflexivity]. repeat (constructor; [split; [exists []; reflexivity|split; vm_compute; reflexivity]|]). constructor. }
  exists wit_config, (copies na), (copies nb). split; [exact wit_default|]. split; [exact Fa|]. split; [exact Fb|]. split; [vm_compute; discriminate|].
  intros u sorted S. destruct wit_full as [A B C].
  split; [apply (history_exists u wit_config 1 10 2 A B C); [discriminate|reflexivity|exact Fa]|].
  split; [apply (history_exists u wit_config 1 10 2 A B C); [discriminate|reflexivity|exact Fb]|].
  intros dk dk' H H'. destruct (copies_printed u sorted na dk S Fa ltac:(cbn; lia) H) as (ix & E & X).
  destruct (copies_printed u sorted nb dk' S Fb ltac:(cbn; lia) H') as (ix' & E' & X').
  exists ix, ix'. split; [exact E|]. split; [exact E'|]. intros grow fuel T Lf LT.
  destruct (X grow fuel true false T ltac:(cbn; lia) LT) as (k & calls & out & Eo & Et). destruct (X' grow fuel true false T ltac:(cbn; lia) LT) as (k' & calls' & out' & Eo' & Et').
  exists k, calls, out, k', calls', out'. split; [exact Eo|]. split; [exact Eo'|]. rewrite Et, Et'. split; [vm_compute; reflexivity|vm_compute; discriminate].
Qed.
Print Assumptions C71_stream_partial.
Print Assumptions C71_determined.
Print Assumptions C71_not_one_refuted.
Print Assumptions C71_bytes_refuted.
Example C71_example : extract_text true false [MkEntry 5 (Some (1%nat, [MkDoc (bs "/a<b") 0 22 []; zero_doc]))] =
  bs "[" ++ [10; 9] ++ bs "{" ++ [10; 9; 9] ++ bs """Blot"": 5," ++ [10; 9; 9] ++ bs """Docs"": [" ++ [10; 9; 9; 9] ++ bs "{" ++
  [10; 9; 9; 9; 9] ++ bs """Path"": ""/a\u003cb""," ++ [10; 9; 9; 9; 9] ++ bs """Start"": 0," ++ [10; 9; 9; 9; 9] ++ bs """End"": 22" ++
  [10; 9; 9; 9] ++ bs "}" ++ [10; 9; 9] ++ bs "]" ++ [10; 9] ++ bs "}" ++ [10] ++ bs "]".
Proof. vm_compute. reflexivity. Qed.
(** The hypotheses can be met. *)
Example C70_C71_hypotheses : forall u, cfg_full wit_config 1 10 2 /\ docs_fit (all_docs [wit_docs]) /\ words_of (word_char u) (all_docs [wit_docs]) wit_wss /\
  (exists dk, history u wit_config [wit_docs] dk) /\ paths_are plain_path (all_docs [wit_docs]) /\ paths_are text_path (all_docs [wit_docs]).
Proof.
  intros u. split; [exact wit_full|]. split; [exact wit_fit|]. split; [exact (wit_words u)|]. split.
  { destruct wit_full as [A B C]. apply (history_exists u wit_config 1 10 2 A B C); [discriminate|reflexivity|exact wit_fit]. }
  split.
  - repeat (constructor; [split; intros I; vm_compute in I; repeat (destruct I as [I|I]; [discriminate I|]); exact I|]). constructor.
  - exact wit_text_paths.
Qed.
