(** Configurations: what is accepted, and what is read back. *)
From Verif Require Import Model.Base Model.Utf8 Model.Path Model.Blotter Model.Config Model.Json Spec.Text Spec.Configs Proof.Tactics Proof.Utf8P Proof.PosterP Proof.JsonP.
Local Open Scope N_scope.

Lemma wrap64_small z : int64 z -> wrap64 z = z.
Proof. intros [A B]. unfold wrap64. rewrite Z.mod_small; lia. Qed.
Lemma check_spec c : cfg_check c = Ok tt <-> cf_seqlen c = wrap64 (bc_interleave (cf_blot c) * bc_seqlen (cf_blot c)).
Proof. unfold cfg_check. destruct (Z.eqb_spec (cf_seqlen c) (wrap64 (bc_interleave (cf_blot c) * bc_seqlen (cf_blot c)))); split; auto; discriminate || congruence. Qed.
Lemma check_result c : cfg_check c = Ok tt \/ cfg_check c = Err EOther.
Proof. unfold cfg_check. destruct (_ =? _)%Z; auto. Qed.

Theorem new_config_accepts cwd root nbuckets seqlen :
  (exists c, new_config cwd root nbuckets seqlen = Ok c) <-> seqlen = (bc_interleave default_blot_config * bc_seqlen default_blot_config)%Z.
Proof.
  unfold new_config. assert (D : exists r, default_config cwd root = Ok (MkConfig r 10 2 2 16384 words_simple default_blot_config)) by (eexists; reflexivity).
  destruct D as (r & ->). cbn [bind cf_root cf_numshatters cf_flush cf_token cf_blot].
  match goal with |- context [cfg_check ?x] => pose proof (check_spec x) as C; destruct (check_result x) as [E|E]; rewrite E in C |- * end;
    cbn [bind cf_seqlen cf_blot] in *; change (wrap64 _) with 10%Z in C.
  - split; intros _; [|eauto]. change (seqlen = 10%Z). apply C. reflexivity.
  - split; [intros (c & Hc); discriminate|]. intros H. change (seqlen = 10%Z) in H. apply C in H. discriminate.
Qed.
Theorem new_config_is cwd root nbuckets seqlen c : new_config cwd root nbuckets seqlen = Ok c ->
  consistent c /\ cf_numshards c = nbuckets /\ cf_seqlen c = seqlen /\ cf_root c = path_abs cwd root.
Proof.
  intros H. assert (seqlen = 10%Z) as -> by (apply (new_config_accepts cwd root nbuckets seqlen); eauto).
  unfold new_config, default_config in H. cbn [cfg_check cf_root cf_numshatters cf_flush cf_token cf_blot] in H.
  change (cfg_check (MkConfig (path_abs cwd root) 10 2 2 16384 words_simple default_blot_config)) with (Ok tt) in H. cbn [bind cf_root cf_numshatters cf_flush cf_token cf_blot] in H.
  change (cfg_check (MkConfig (path_abs cwd root) 10 nbuckets 2 16384 words_simple default_blot_config)) with (Ok tt) in H. cbn [bind] in H.
  assert (c = MkConfig (path_abs cwd root) 10 nbuckets 2 16384 words_simple default_blot_config) as -> by congruence.
  split; [reflexivity|]. split; [reflexivity|]. split; reflexivity.
Qed.
Theorem read_config_accepts d : (exists c, read_config (Some d) = Ok c) <->
  exists c, unmarshal d = Some c /\ cf_seqlen c = wrap64 (bc_interleave (cf_blot c) * bc_seqlen (cf_blot c)).
Proof.
  unfold read_config. destruct (unmarshal d) as [c|]; [|split; intros (c & H); [discriminate|destruct H; discriminate]].
  split.
  - intros (c' & H). exists c. split; [reflexivity|]. apply check_spec. destruct (check_result c) as [E|E]; rewrite E in H; [exact E|discriminate].
  - intros (c' & E & H). inversion E; subst c'. apply check_spec in H. rewrite H. cbn [bind]. eauto.
Qed.

Definition tree (c : config) : list (bytes * jval) :=
  [(k_IndexRoot, JStr (cf_root c)); (k_SeqLen, JNum (json_int (cf_seqlen c))); (k_NumShards, JNum (json_int (cf_numshards c)));
   (k_NumShatters, JNum (json_int (cf_numshatters c))); (k_DocFlushRate, JNum (json_int (cf_flush c)));
   (k_TokenConfig, JObj [(k_Name, JStr (cf_token c))]);
   (k_BlotConfig, JObj [(k_SeqLen, JNum (json_int (bc_seqlen (cf_blot c)))); (k_Interleave, JNum (json_int (bc_interleave (cf_blot c))))])].
Lemma field_intro k pr v : key_ok k = true -> reads_as pr v -> field_ok (k, pr) (k, v).
Proof. intros A B. split; [reflexivity|split; assumption]. Qed.
Lemma marshal_reads c : cfg_values c -> reads_as (marshal c) (JObj (tree c)).
Proof.
  intros [(r1 & H1) (r2 & H2) A B C D E F]. apply object_reads; [|discriminate].
  repeat (apply Forall2_cons || apply Forall2_nil); (apply field_intro; [reflexivity|]); try (apply int_reads; assumption).
  - apply (string_reads _ r1), H1.
  - apply object_reads; [|discriminate]. repeat (apply Forall2_cons || apply Forall2_nil). apply field_intro; [reflexivity|]. apply (string_reads _ r2), H2.
  - apply object_reads; [|discriminate]. repeat (apply Forall2_cons || apply Forall2_nil); (apply field_intro; [reflexivity|]); apply int_reads; assumption.
Qed.
Ltac fields := repeat match goal with |- context [is_field ?a ?b] => let x := eval vm_compute in (is_field a b) in change (is_field a b) with x end; cbv iota.
Lemma tree_decodes c : cfg_values c -> dec_object config_field (JObj (tree c)) zero_config = Some c.
Proof.
  intros [_ _ A B C D E F]. unfold dec_object, tree, zero_config.
  cbn [dec_members]. unfold config_field at 1. fields. cbn [dec_str option_map].
  cbn [dec_members]. unfold config_field at 1. fields. cbn [dec_int]. rewrite int_parses by exact A. cbn [option_map].
  cbn [dec_members]. unfold config_field at 1. fields. cbn [dec_int]. rewrite int_parses by exact B. cbn [option_map].
  cbn [dec_members]. unfold config_field at 1. fields. cbn [dec_int]. rewrite int_parses by exact C. cbn [option_map].
  cbn [dec_members]. unfold config_field at 1. fields. cbn [dec_int]. rewrite int_parses by exact D. cbn [option_map].
  cbn [dec_members]. unfold config_field at 1. fields. cbn [dec_object dec_members]. unfold token_field at 1. fields. cbn [dec_str option_map].
  cbn [dec_members]. unfold config_field at 1. fields. cbn [dec_object dec_members]. unfold blot_field at 1. fields. cbn [dec_int]. rewrite int_parses by exact E.
  cbn [option_map bc_interleave bc_seqlen]. unfold blot_field at 1. fields. cbn [dec_int]. rewrite int_parses by exact F. cbn [option_map bc_interleave bc_seqlen].
  destruct c as [? ? ? ? ? ? []]. reflexivity.
Qed.
Lemma skip_blank s : blank s <-> skip_space s = [].
Proof.
  unfold blank. split.
  - induction 1 as [|c s H _ IH]; [reflexivity|]. cbn [skip_space]. cbn [In] in H.
    destruct H as [<-|[<-|[<-|[<-|[]]]]]; exact IH.
  - induction s as [|c s IH]; intros H; [constructor|]. cbn [skip_space] in H. destruct (is_space c) eqn:E; [|discriminate].
    constructor; [|auto]. unfold is_space in E. rewrite !orb_true_iff, !N.eqb_eq in E. cbn [In]. intuition congruence.
Qed.
Lemma parse_marshal c tail : cfg_values c -> json_parse (marshal c ++ 10 :: tail) = match skip_space tail with [] => Some (JObj (tree c)) | _ => None end.
Proof.
  intros V. destruct (marshal_reads c V) as [(h & t & E & Hs) R]. unfold json_parse.
  replace (skip_space (marshal c ++ 10 :: tail)) with (marshal c ++ 10 :: tail) by (rewrite E; cbn [app]; rewrite skip_none by exact Hs; reflexivity).
  rewrite R by (reflexivity || (rewrite app_length; cbn [length]; lia)). reflexivity.
Qed.
Definition content (f : option bytes) : bytes := match f with None => [] | Some f => f end.
Lemma write_is old c : config_write old c = marshal c ++ 10 :: skipn (S (length (marshal c))) (content old).
Proof.
  unfold config_write. change (match old with None => [] | Some f => f end) with (content old). remember (content old) as f. clear.
  remember (marshal c) as d. clear. unfold pwrite. cbn [firstn app repeat Nat.sub].
  rewrite firstn_app, firstn_all, Nat.sub_diag. cbn [firstn]. rewrite app_nil_r. f_equal.
  replace (length d - length (d ++ skipn (0 + length d) f))%nat with 0%nat by (rewrite app_length; lia). cbn [repeat app length Nat.add].
  f_equal. rewrite skipn_app. rewrite (skipn_all2 d) by lia. cbn [app]. replace (length d + 1 - length d)%nat with 1%nat by lia.
  rewrite <- skipn_add. replace (length d + 1)%nat with (S (length d)) by lia. reflexivity.
Qed.
Lemma read_parsed c d : cfg_values c -> consistent c -> json_parse d = Some (JObj (tree c)) -> read_config (Some d) = Ok c.
Proof.
  intros V Co P. unfold read_config, unmarshal. rewrite P, tree_decodes by exact V.
  assert (E : cfg_check c = Ok tt).
  { apply check_spec. unfold consistent in Co. rewrite <- Co, wrap64_small by apply (cv_seqlen _ V). reflexivity. }
  rewrite E. reflexivity.
Qed.
(** Exactly when a configuration is read back. *)
Theorem read_back c old : cfg_values c -> consistent c ->
  (blank (skipn (S (length (marshal c))) (content old)) -> read_config (Some (config_write old c)) = Ok c) /\
  (~ blank (skipn (S (length (marshal c))) (content old)) -> read_config (Some (config_write old c)) = Err EOther).
Proof.
  intros V Co. rewrite write_is. remember (skipn (S (length (marshal c))) (content old)) as tail eqn:Et. clear Et.
  unfold read_config, unmarshal. rewrite parse_marshal by exact V. split; intros H.
  - apply skip_blank in H. rewrite H. rewrite tree_decodes by exact V.
    assert (E : cfg_check c = Ok tt).
    { apply check_spec. unfold consistent in Co. rewrite <- Co, wrap64_small by apply (cv_seqlen _ V). reflexivity. }
    rewrite E. reflexivity.
  - destruct (skip_space tail) eqn:E; [contradiction H; apply skip_blank; exact E|reflexivity].
Qed.
Theorem read_back_short c old : cfg_values c -> consistent c -> (length (content old) <= S (length (marshal c)))%nat ->
  config_write old c = marshal c ++ [10] /\ read_config (Some (config_write old c)) = Ok c.
Proof.
  intros V Co L. assert (E : skipn (S (length (marshal c))) (content old) = []) by (apply skipn_all2; exact L). split.
  - rewrite write_is, E. reflexivity.
  - apply read_back; auto. rewrite E. constructor.
Qed.
Lemma marshal_head c : exists t, marshal c = 123 :: 10 :: 9 :: 34 :: t.
Proof. unfold marshal, json_object. cbn [json_fields repeat app]. eexists. reflexivity. Qed.
Theorem overwrite_breaks c : cfg_values c -> consistent c ->
  exists old, read_config (Some old) = Ok c /\ read_config (Some (config_write (Some old) c)) = Err EOther.
Proof.
  intros V Co. exists (repeat 32 (length (marshal c)) ++ marshal c ++ [10]). split.
  - assert (P : json_parse (repeat 32 (length (marshal c)) ++ marshal c ++ [10]) = Some (JObj (tree c))).
    { unfold json_parse. assert (S1 : forall n x, skip_space (repeat 32 n ++ x) = skip_space x) by (intros n x; induction n as [|n IH]; [reflexivity|exact IH]).
      rewrite S1. destruct (marshal_reads c V) as [(h & t & E & Hs) R].
      replace (skip_space (marshal c ++ [10])) with (marshal c ++ [10]) by (rewrite E; cbn [app]; rewrite skip_none by exact Hs; reflexivity).
      rewrite R; [reflexivity| |reflexivity]. rewrite !app_length. lia. }
    apply read_parsed; assumption.
  - apply read_back; auto. cbn [content]. remember (marshal c) as d eqn:Ed.
    assert (E : skipn (S (length d)) (repeat 32 (length d) ++ d ++ [10]) = skipn 1 (d ++ [10])).
    { rewrite skipn_app, (skipn_all2 (repeat 32 (length d))), repeat_length by (rewrite repeat_length; lia).
      replace (S (length d) - length d)%nat with 1%nat by lia. reflexivity. }
    rewrite E. destruct (marshal_head c) as (t & Et). rewrite <- Ed in Et. rewrite Et. cbn [app skipn]. intros B.
    inversion B as [|? ? _ B1]; subst. inversion B1 as [|? ? _ B2]; subst. inversion B2 as [|? ? B3 _]; subst. cbn [In] in B3. intuition discriminate.
Qed.
