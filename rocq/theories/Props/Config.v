(** C38, C39: configurations and their file. *)
From Coq Require Import String.
From Verif Require Import Model.Base Model.Utf8 Model.Path Model.Blotter Model.Config Model.Json Spec.Str Spec.Text Spec.Paths Spec.Configs Proof.Tactics Proof.PathP Proof.JsonP Proof.ConfigP.
Local Open Scope N_scope.
Local Open Scope list_scope.

(** C38 *)
Theorem C38_new_config : forall cwd root nbuckets seqlen,
  (exists c, new_config cwd root nbuckets seqlen = Ok c) <-> seqlen = 10%Z.
Proof. exact new_config_accepts. Qed.
Theorem C38_new_config_is : forall cwd root nbuckets seqlen c, rooted cwd -> new_config cwd root nbuckets seqlen = Ok c ->
  consistent c /\ cf_numshards c = nbuckets /\ cf_seqlen c = seqlen /\ cf_root c = show_abs (spec_abs cwd root).
Proof. intros cwd root nb sl c R E. rewrite <- (path_abs_spec cwd root R). exact (new_config_is cwd root nb sl c E). Qed.
(** Reading, when the product is an int. *)
Theorem C38_read_config_partial : forall d c, unmarshal d = Some c -> int64 (bc_interleave (cf_blot c) * bc_seqlen (cf_blot c)) ->
  (read_config (Some d) = Ok c <-> consistent c) /\ (read_config (Some d) = Err EOther <-> ~ consistent c).
Proof.
  intros d c U I. unfold read_config. rewrite U. pose proof (check_spec c) as C. rewrite (wrap64_small _ I) in C. fold (consistent c) in C.
  destruct (check_result c) as [E|E]; rewrite E in *; cbn [bind].
  - destruct C as [C _]. specialize (C eq_refl). split; split; auto; try discriminate. intros H. contradiction (H C).
  - destruct C as [_ C]. split; split; auto; try discriminate; intros H; [specialize (C H); discriminate|]. intros X. specialize (C X). discriminate.
Qed.
(** Otherwise not: the product wraps around, and a configuration with sequence length 0 and
    a blotter of 2^32 times 2^32 is accepted. *)
Theorem C38_read_config_refuted : exists d c, unmarshal d = Some c /\ cfg_values c /\ ~ consistent c /\ read_config (Some d) = Ok c.
Proof.
  exists (bs "{""SeqLen"":0,""BlotConfig"":{""SeqLen"":4294967296,""Interleave"":4294967296}}"),
    (MkConfig [] 0 0 0 0 [] (MkBlotConfig 4294967296 4294967296)).
  split; [vm_compute; reflexivity|]. split; [|split; [vm_compute; discriminate|vm_compute; reflexivity]].
  assert (T : is_text [] []) by (split; constructor).
  constructor; try (split; [discriminate|reflexivity]); exists []; exact T.
Qed.
Print Assumptions C38_new_config.
Print Assumptions C38_new_config_is.
Print Assumptions C38_read_config_partial.
Print Assumptions C38_read_config_refuted.
Example C38_example : rooted (bs "/") /\ exists c, new_config (bs "/") (bs "x") 7 10 = Ok c.
Proof. split; [exists []; reflexivity|]. eexists. reflexivity. Qed.
Definition example_config : config := MkConfig (bs "/a<b""c") 30 4 (-1) 5 words_simple (MkBlotConfig 10 3).
Example C38_example_read : unmarshal (bs "{""SeqLen"": 30, ""blotconfig"":{""SEQLEN"":10,""Interleave"":3}} ") =
  Some (MkConfig [] 30 0 0 0 [] (MkBlotConfig 10 3)).
Proof. vm_compute. reflexivity. Qed.

(** C39: exactly when it is read back. *)
Theorem C39_read_back_exactly : forall c old, cfg_values c -> consistent c ->
  let rest := skipn (S (List.length (marshal c))) (content old) in
  (blank rest -> read_config (Some (config_write old c)) = Ok c) /\
  (~ blank rest -> read_config (Some (config_write old c)) = Err EOther).
Proof. exact read_back. Qed.
(** So any configuration file can be replaced by a longer one with the same meaning such
    that Write makes it unreadable. *)
Theorem C39_read_back_refuted : forall c, cfg_values c -> consistent c ->
  exists old, read_config (Some old) = Ok c /\ read_config (Some (config_write (Some old) c)) = Err EOther.
Proof. exact overwrite_breaks. Qed.
(** Nor is a root that is not UTF-8 read back, even from a new file. *)
Theorem C39_bad_root_refuted : exists c c', (forall rs, ~ is_text (cf_root c) rs) /\ consistent c /\
  read_config (Some (config_write None c)) = Ok c' /\ cf_root c' <> cf_root c.
Proof.
  exists (MkConfig [47; 255] 10 2 2 1 words_simple default_blot_config), (MkConfig [47; 239; 191; 189] 10 2 2 1 words_simple default_blot_config).
  split; [|split; [reflexivity|split; [vm_compute; reflexivity|discriminate]]].
  intros rs H. assert (V : utf8_valid [47; 255] = true) by (apply Utf8P.utf8_valid_spec; eauto). discriminate.
Qed.
(** What holds: a file that was missing or not longer. In particular writing the same
    configuration again (what an append session does) changes nothing. *)
Theorem C39_read_back_partial : forall c old, cfg_values c -> consistent c -> (List.length (content old) <= S (List.length (marshal c)))%nat ->
  config_write old c = marshal c ++ [10] /\ read_config (Some (config_write old c)) = Ok c.
Proof. exact read_back_short. Qed.
Print Assumptions C39_read_back_exactly.
Print Assumptions C39_read_back_refuted.
Print Assumptions C39_bad_root_refuted.
Print Assumptions C39_read_back_partial.
Example C39_example : cfg_values example_config /\ consistent example_config.
Proof.
  split; [|reflexivity]. constructor; try (split; [vm_compute; discriminate|reflexivity]); apply Utf8P.utf8_valid_spec; vm_compute; reflexivity.
Qed.
