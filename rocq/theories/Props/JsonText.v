(** C112: configuration files and other JSON. *)
From Coq Require Import String QArith Qabs.
From Verif Require Import Model.Base Model.Path Model.Utf8 Model.Token Model.Blotter Model.Conc Model.Config Model.Index Model.Query Model.Session Model.Extract Model.Cmd Model.Json Model.Stats Model.Inspect Model.Output.
From Verif Require Import Spec.Text Spec.Fingerprint Spec.Paths Spec.Configs Spec.Reading Spec.Querying Spec.History Spec.Str Spec.Mean Spec.Printed Spec.Double Spec.Inspected Spec.JsonText.
From Verif Require Import Proof.Tactics Proof.TokenP Proof.BlotterP Proof.ConfigP Proof.OutputP Proof.OutputP2 Proof.InspectP2 Proof.InspectP3 Proof.JsonTextP Proof.JsonTextP2 Proof.JsonTextP3.
From Verif Require Import Props.Output Props.Inspect.
Local Open Scope N_scope.
Local Open Scope list_scope.

(** C112: "A configuration file is read as the JSON text that it is."

    What text gives which value is RFC 8259's grammar, what value gives which configuration is
    [gives_config] (Spec/JsonText); the reader is Model/Json's. *)
Theorem C112_values : forall d rs v, is_text d rs -> (json_parse d = Some v <-> json_text v d /\ shallow v).
Proof. intros d rs v T. split; [apply parse_out; exists rs; exact T|]. intros [J S]. exact (parse_in d v J S). Qed.
Theorem C112_configs : forall d rs c, is_text d rs ->
  (unmarshal d = Some c <-> configures d c).
Proof.
  intros d rs c T. unfold unmarshal, configures. split.
  - destruct (json_parse d) as [v|] eqn:E; [|discriminate]. intros G. apply (C112_values d rs v T) in E. destruct E as [J S]. exists v. split; [exact J|]. split; [exact S|]. apply config_spec, G.
  - intros (v & J & S & G). rewrite (parse_in d v J S). apply config_spec, G.
Qed.
(** There is one value for a text and one configuration for a value. *)
Theorem C112_one : forall d v v' c c', json_text v d -> json_text v' d -> shallow v -> shallow v' -> gives_config v c -> gives_config v' c' -> v = v' /\ c = c'.
Proof.
  intros d v v' c c' J J' S S' G G'. assert (E : v = v') by (pose proof (parse_in d v J S); pose proof (parse_in d v' J' S'); congruence). subst v'. split; [reflexivity|].
  apply config_spec in G, G'. congruence.
Qed.
(** So ReadConfig, which also wants the sequence length to be right (C38). *)
Theorem C112_read : forall d rs, is_text d rs ->
  (forall c, read_config (Some d) = Ok c -> configures d c) /\
  (forall c, configures d c -> consistent c -> read_config (Some d) = Ok c) /\
  (forall c, configures d c -> ~ consistent c -> int64 (bc_interleave (cf_blot c) * bc_seqlen (cf_blot c)) -> read_config (Some d) = Err EOther) /\
  ((forall c, ~ configures d c) -> read_config (Some d) = Err EOther).
Proof.
  intros d rs T.
  split; [|split; [|split]].
  - intros c E. apply (C112_configs d rs c T). unfold read_config in E. destruct (unmarshal d) as [c'|]; [|discriminate]. destruct (cfg_check c'); cbn [bind] in E; congruence.
  - intros c M C. pose proof (configures_values d c M) as V. apply (C112_configs d rs c T) in M. unfold read_config. rewrite M. assert (cfg_check c = Ok tt) as ->; [|reflexivity]. apply check_spec. unfold consistent in C. rewrite <- C. symmetry. apply wrap64_small, (cv_seqlen c V).
  - intros c M C I. apply (C112_configs d rs c T) in M. unfold read_config. rewrite M. destruct (check_result c) as [E| ->]; [|reflexivity]. apply check_spec in E. rewrite (wrap64_small _ I) in E. contradiction.
  - intros N. unfold read_config. destruct (unmarshal d) as [c|] eqn:E; [|reflexivity]. apply (C112_configs d rs c T) in E. contradiction (N c E).
Qed.
(** What Write makes of a new file is such a text. *)
Theorem C112_written : forall c, cfg_values c -> consistent c -> configures (config_write None c) c.
Proof.
  intros c V C. assert (T : texty (config_write None c)).
  { rewrite write_is. apply texty_app; [apply marshal_texty|]. apply texty_asc. unfold content. rewrite skipn_nil. repeat constructor. }
  destruct T as [rs T]. apply (proj1 (C112_read _ rs T)). apply (read_back_short c None V C). apply Nat.le_0_l.
Qed.
(** So a configuration that was read can be written and read again. *)
Theorem C112_again : forall d rs c, is_text d rs -> read_config (Some d) = Ok c -> consistent c -> read_config (Some (config_write None c)) = Ok c.
Proof.
  intros d rs c T E C. apply (proj1 (C112_read d rs T)) in E. apply (read_back_short c None (configures_values d c E) C). apply Nat.le_0_l.
Qed.
(** What extract -json prints are such texts, one for every blot, ... *)
Theorem C112_extract : forall u c k m n sorted, cfg_full c k m n -> sorts sorted ->
  forall ss dk wss, history u c ss dk -> docs_fit (all_docs ss) -> words_of (word_char u) (all_docs ss) wss -> paths_are text_path (all_docs ss) ->
  exists ix, open_index sorted dk = Ok ix /\
  forall grow fuel, (List.length (all_docs ss) < fuel)%nat -> forall T, exists k' calls out es vs,
    extract grow ix true T fuel k' calls = Ok out /\ frequent (word_hash u) k m n (all_docs ss) wss T es /\ Forall2 value_of es vs /\
    forall only, texts vs (extract_text true only out).
Proof.
  intros u c k m n sorted F S ss dk wss Hi Fit Ww Tp. destruct (prints_frequent u c k m n sorted F S ss dk wss Hi Fit Ww) as (ix & E & X).
  exists ix. split; [exact E|]. intros grow fuel Lf T. destruct (X grow fuel Lf true T) as (k' & calls & out & Eo & Fr & Fo & P).
  specialize (P text_path ltac:(exists []; split; [constructor|reflexivity]) Tp).
  destruct (entries_read out) as (vs & F1 & F2).
  { rewrite Forall_forall in *. intros e He. destruct (Fo e He) as (A & B & C). auto. }
  exists k', calls, out, (map entry_of out), vs. split; [exact Eo|]. split; [exact Fr|]. split; [exact F2|]. intros only. unfold extract_text.
  apply texts_of; [exact F1|]. apply Forall_forall. intros t I. apply in_map_iff in I. destruct I as (e & <- & _). apply entry_texty.
Qed.
(** ... and what inspect -json prints is one. *)
Theorem C112_inspect : forall u c k m n sorted, cfg_full c k m n -> sorts sorted -> text_path (cf_root c) ->
  forall ss dk wss, history u c ss dk -> docs_fit (all_docs ss) -> words_of (word_char u) (all_docs ss) wss ->
  exists ix, open_index sorted dk = Ok ix /\ forall fuse, exists mean sigma t v,
    inspect fuse true ix = (t, 0) /\ json_text v t /\
    value_stats (cf_root c) (1 + nlen (all_docs ss)) (nlen (tree_nodes (all_docs ss))) (pairs (word_hash u) k m n wss) (N.of_nat n * 65536) mean sigma v.
Proof.
  intros u c k m n sorted F Hs Tx ss dk wss Hi Fit Ww. destruct (C74_json u c k m n sorted F Hs Tx ss dk wss Hi Fit Ww) as (ix & E & X).
  exists ix. split; [exact E|]. intros fuse. destruct (X fuse) as (mean & sigma & t & v & Et & Ep & V & _). exists mean, sigma, t, v. split; [exact Et|]. split; [|exact V].
  apply (parse_out t v); [|exact Ep]. unfold inspect in Et. destruct (inspect_json fuse ix) as [t'|] eqn:Ei; [|discriminate Et]. injection Et as <-. exact (inspect_texty fuse ix t' Ei).
Qed.
Print Assumptions C112_values.
Print Assumptions C112_configs.
Print Assumptions C112_one.
Print Assumptions C112_read.
Print Assumptions C112_written.
Print Assumptions C112_again.
Print Assumptions C112_extract.
Print Assumptions C112_inspect.
(** A text with escapes, names in other cases, a value given twice and one that is not used. *)
Definition example_text : bytes := bs "{""SeqLen"": 3, ""x"": [1.5e3, {}], ""INDEXROOT"": ""\u002f\ud83d\ude00\n"", ""blotConfig"": {""interleave"": 1, ""seqlen"": 7}, ""SeqLen"": 20, ""BlotConfig"": {""SeqLen"": 20}, ""NumShards"": null}".
Definition example_of_text : config := MkConfig [47; 240; 159; 152; 128; 10] 20 0 0 0 [] (MkBlotConfig 20 1).
Example C112_example : is_text example_text example_text /\ configures example_text example_of_text /\ consistent example_of_text /\ cfg_values example_of_text /\
  read_config (Some example_text) = Ok example_of_text.
Proof.
  assert (T : is_text example_text example_text).
  { split; [|vm_compute; reflexivity]. apply Forall_forall. intros c I. left. assert (B : forallb (fun c => c <? 55296) example_text = true) by (vm_compute; reflexivity). rewrite forallb_forall in B. apply N.ltb_lt, B, I. }
  assert (R : read_config (Some example_text) = Ok example_of_text) by (vm_compute; reflexivity).
  pose proof (proj1 (C112_read _ _ T) _ R) as C. split; [exact T|]. split; [exact C|]. split; [reflexivity|]. split; [exact (configures_values _ _ C)|exact R].
Qed.
(** A text written out by the grammar. *)
Example C112_example_text : json_text (JObj [(bs "a", JNum (bs "-1"))]) (bs " {""a"" :-1} ").
Proof.
  exists [32], (bs "{""a"" :-1}"), [32]. split; [reflexivity|]. assert (B : blank [32]) by (constructor; [left; reflexivity|constructor]). assert (B0 : blank []) by constructor.
  split; [exact B|]. split; [|exact B]. apply (v_obj [(bs "a", JNum (bs "-1"))] (bs """a"" :-1")).
  apply (m_one [97] [97] [] [32] [] (JNum (bs "-1")) (bs "-1") [] B0); [|exact B|exact B0| |exact B0].
  - apply (ch_plain 97 [] []); [left; reflexivity|discriminate|discriminate|discriminate|constructor].
  - apply v_num. exists [45], [49], [], []. split; [reflexivity|]. split; [right; left; reflexivity|]. split; [|split; left; reflexivity].
    right. exists 49, []. split; [reflexivity|]. split; [split; discriminate|]. split; [discriminate|constructor].
Qed.
