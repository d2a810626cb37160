(** C15, C16: tokens. *)
From Coq Require Import String.
From Verif Require Import Model.Base Model.Utf8 Model.Token Model.Blotter Model.Config Model.Index Model.Shatter.
From Verif Require Import Spec.Text Spec.Str Proof.Tactics Proof.Utf8P Proof.TokenP Proof.TokenP2.
Local Open Scope N_scope.

(** Missing from C15: the tokens spell the document without its last character (see the
    refutation below). *)
Theorem C15_tokens_partition_partial : forall u d rs offset, is_text d rs ->
  let ts := tokenize u d offset in
  concat (map t_lit ts) = utf8s (removelast rs) /\
  (forall t, In t ts -> t_lit t <> []) /\
  (forall i t1 t2, nth_error ts i = Some t1 -> nth_error ts (S i) = Some t2 -> t_tag t1 <> t_tag t2) /\
  (forall i t, nth_error ts i = Some t ->
     t_pos t = (offset + nlen (concat (map t_lit (firstn i ts)))) mod 2 ^ 32) /\
  (forall t, In t ts -> exists cs, is_text (t_lit t) cs /\
     forall c, In c cs -> word_char u c = match t_tag t with Word => true | Other => false end).
Proof. exact tokens_partition. Qed.
(** No non-empty document is spelled by its tokens: the last character is lost. *)
Theorem C15_tokens_spell_refuted : forall u d rs offset, is_text d rs -> d <> [] ->
  concat (map t_lit (tokenize u d offset)) <> d.
Proof. exact tokens_never_spell. Qed.
Print Assumptions C15_tokens_partition_partial.
Print Assumptions C15_tokens_spell_refuted.
Example C15_example : forall u,
  is_text (bs "Ab c1, d") (bs "Ab c1, d") /\
  tokenize u (bs "Ab c1, d") 7 =
    [MkTok Word (bs "Ab") 7; MkTok Other (bs " ") 9; MkTok Word (bs "c1") 10; MkTok Other (bs ", ") 12].
Proof.
  intros u. split; [|vm_compute; reflexivity]. split; [|vm_compute; reflexivity].
  repeat (constructor; [left; vm_compute; reflexivity|]). constructor.
Qed.

Theorem C16_invalid_utf8_contributes_nothing : forall u d, (forall rs, ~ is_text d rs) ->
  (forall offset, tokenize u d offset = []) /\
  (forall n seqlen bl did offset, shatter_do u n seqlen bl did offset d = Ok (bl, repeat [] n)) /\
  (forall c b dst path start end_, idx_blotter c = Ok b -> cf_token c = words_simple ->
     blot_doc u c dst (MkDoc path start end_ d) = Ok dst).
Proof. exact invalid_nothing. Qed.
Print Assumptions C16_invalid_utf8_contributes_nothing.
Example C16_example : (forall rs, ~ is_text [97; 128; 98] rs) /\
  exists b, idx_blotter (MkConfig [] 10 2 2 16384 words_simple default_blot_config) = Ok b.
Proof.
  split; [|eexists; vm_compute; reflexivity]. intros rs T.
  assert (V : utf8_valid [97; 128; 98] = true) by (apply utf8_valid_spec; eauto). vm_compute in V. discriminate.
Qed.
