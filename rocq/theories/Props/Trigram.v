(** Trigrams: C51. *)
From Verif Require Import Model.Base Model.Trigram Spec.Spelling Proof.Tactics Proof.TrigramP.
Local Open Scope N_scope.

(** C51: "Every trigram produced from tokens is below NumTrigrams and prints as the last
    three letters of the (case-folded, squeezed) text read so far."

    In range: for all token sequences, and from any start, even an invalid one. *)
Theorem C51_in_range toks : Forall (fun t => t < num_trigrams) (visit_tokens toks).
Proof. exact (visit_range toks tri_zero). Qed.
Print Assumptions C51_in_range.
Theorem C51_token_in_range dst t tok t' dst' : from_token dst t tok = Ok (t', dst') ->
  exists l, dst' = dst ++ l /\ Forall (fun x => x < num_trigrams) l /\ visit_token t tok = (t', l).
Proof. exact (from_token_range dst t tok t' dst'). Qed.
Print Assumptions C51_token_in_range.

(** Spelling: for sequences with no end-of-document token except at the end (the tokenizer
    never produces one). *)
Theorem C51_spells_partial toks eod : Forall (fun tok => tt_tag tok <> TEod) toks ->
  (eod = [] \/ exists lit, eod = [MkTTok TEod lit]) ->
  map tri_string (visit_tokens (toks ++ eod)) = windows3 (spelling toks).
Proof.
  intros H E. unfold visit_tokens. destruct (visit_app toks tri_zero eod) as [t' ->].
  assert (visit_from t' eod = []) as -> by (destruct E as [->|[lit ->]]; reflexivity).
  rewrite app_nil_r. exact (visit_spell toks _ _ zero_codes H).
Qed.
Print Assumptions C51_spells_partial.
(** FromTokens gives the same trigrams. *)
Theorem C51_from_tokens dst toks : Forall (fun tok => tt_tag tok <> TEod) toks ->
  from_loop dst tri_zero toks = Ok (dst ++ visit_tokens toks).
Proof. exact (from_visit toks dst tri_zero). Qed.
Print Assumptions C51_from_tokens.

(** False for all sequences: after an end-of-document token the code is 0, which prints as
    "000" although no zero was read. *)
Theorem C51_after_eod_refuted :
  ~ (forall toks, map tri_string (visit_tokens toks) = windows3 (spelling toks)).
Proof. intros H. specialize (H [MkTTok TEod []; MkTTok TWord [97]]). vm_compute in H. discriminate H. Qed.
Print Assumptions C51_after_eod_refuted.

(** "I am" *)
Example C51_example : map tri_string (visit_tokens [MkTTok TWord [73]; MkTTok TOther [32; 32]; MkTTok TWord [97; 109]]) =
  [[95; 95; 105]; [95; 105; 95]; [105; 95; 97]; [95; 97; 109]].
Proof. vm_compute. reflexivity. Qed.
Example C51_example_tokens : Forall (fun tok => tt_tag tok <> TEod) [MkTTok TWord [73]; MkTTok TOther [32; 32]; MkTTok TWord [97; 109]].
Proof. repeat constructor; discriminate. Qed.
