(** What the program writes as JSON is UTF-8, so JSON as in Spec/JsonText. *)
From Coq Require Import String QArith.
From Verif Require Import Model.Base Model.Utf8 Model.Blotter Model.Config Model.Json Model.Float Model.Index Model.Query Model.Output Model.Stats Model.Inspect Spec.Str Spec.Text Spec.Configs Spec.JsonText Proof.Tactics Proof.Utf8P Proof.JsonP Proof.ConfigP Proof.InspectP3 Proof.JsonTextP.
From Coq Require Import Lia.
Local Open Scope N_scope.
Local Open Scope list_scope.

Definition asc (s : bytes) : Prop := Forall (fun c => c < 128) s.
Lemma texty_app a b : texty a -> texty b -> texty (a ++ b).
Proof. intros (ra & Fa & Ea) (rb & Fb & Eb). exists (ra ++ rb). split; [apply Forall_app; auto|]. rewrite Ea, Eb. unfold utf8s. rewrite map_app, concat_app. reflexivity. Qed.
Lemma texty_asc s : asc s -> texty s.
Proof.
  intros F. exists s. split.
  - eapply Forall_impl; [|exact F]. intros c Hc. cbv beta in Hc. left. lia.
  - induction F as [|c s Hc F IH]; [reflexivity|]. rewrite utf8s_cons, <- IH, (utf8_small c Hc). reflexivity.
Qed.
Lemma texty_rune r : scalar r -> texty (utf8 r).
Proof. intros S. exists [r]. split; [constructor; [exact S|constructor]|]. rewrite utf8s_cons. cbn. rewrite app_nil_r. reflexivity. Qed.
Lemma asc_app a b : asc a -> asc b -> asc (a ++ b).
Proof. intros A B. apply Forall_app. split; assumption. Qed.
Lemma asc_repeat c n : c < 128 -> asc (repeat c n).
Proof. intros L. induction n; constructor; assumption. Qed.
Lemma asc_firstn n s : asc s -> asc (firstn n s).
Proof. intros F. revert n. induction F; intros [|n]; constructor; auto; apply IHF. Qed.
Lemma asc_skipn n s : asc s -> asc (skipn n s).
Proof. intros F. revert n. induction F; intros [|n]; cbn [skipn]; try constructor; auto; apply IHF. Qed.
Lemma asc_bs s : forallb (fun c => c <? 128) (bs s) = true -> asc (bs s).
Proof. intros H. rewrite forallb_forall in H. apply Forall_forall. intros c I. apply N.ltb_lt, H, I. Qed.
Lemma asc_digits fuel : forall n, asc (digits fuel n).
Proof.
  induction fuel as [|k IH]; intros n; [constructor|]. cbn [digits]. destruct (N.ltb_spec n 10); [constructor; [lia|constructor]|].
  apply asc_app; [apply IH|]. constructor; [|constructor]. pose proof (N.mod_lt n 10 ltac:(discriminate)). lia.
Qed.
Lemma hex_digit_asc n : n < 16 -> hex_digit n < 128.
Proof. unfold hex_digit. destruct (n <? 10); lia. Qed.
Lemma escape_asc c : c < 128 -> asc (escape c).
Proof.
  intros L. unfold escape. destruct ((c =? 34) || (c =? 92)); [repeat (constructor; [lia|]); constructor|].
  destruct (c =? 10); [repeat (constructor; [lia|]); constructor|]. destruct (c =? 13); [repeat (constructor; [lia|]); constructor|]. destruct (c =? 9); [repeat (constructor; [lia|]); constructor|].
  assert (c / 16 < 16) by (apply N.div_lt_upper_bound; lia). pose proof (N.mod_lt c 16 ltac:(discriminate)).
  repeat (constructor; [first [lia|apply hex_digit_asc; assumption]|]). constructor.
Qed.
Lemma quote_texty fuel : forall s, texty (quote_loop fuel s).
Proof.
  induction fuel as [|k IH]; intros [|c s]; try exact texty_nil. cbn [quote_loop]. destruct (N.ltb_spec c 128) as [L|L].
  - apply texty_app; [|apply IH]. apply texty_asc. destruct (html_safe c); [constructor; [exact L|constructor]|apply escape_asc, L].
  - destruct (decode_rune (c :: s)) as [[x n]|] eqn:D.
    + destruct (decode_inv _ _ _ D) as (Sc & Hn & Es). apply texty_app; [|apply IH]. destruct ((x =? 8232) || (x =? 8233)).
      * apply texty_asc. repeat (constructor; [first [lia|apply hex_digit_asc, N.mod_lt; discriminate]|]). constructor.
      * rewrite Es, Hn, firstn_front. apply texty_rune, Sc.
    + apply texty_app; [|apply IH]. apply texty_asc. repeat (constructor; [lia|]). constructor.
Qed.
Lemma string_texty s : texty (json_string s).
Proof. unfold json_string. apply texty_app; [apply texty_asc; repeat constructor|]. apply texty_app; [apply quote_texty|apply texty_asc; repeat constructor]. Qed.
Lemma asc1 c : c < 128 -> texty [c].
Proof. intros L. apply texty_asc. constructor; [exact L|constructor]. Qed.
Lemma int_texty z : texty (json_int z).
Proof. apply texty_asc. unfold json_int. destruct (z <? 0)%Z; [constructor; [lia|]|]; apply asc_digits. Qed.
Lemma fields_texty ind fs : asc ind -> Forall (fun f => texty (fst f) /\ texty (snd f)) fs -> texty (json_fields ind fs).
Proof.
  intros A. induction 1 as [|[k v] fs [K V] F IH]; [exact texty_nil|]. cbn [fst snd] in *. cbn [json_fields].
  assert (X : texty ([10] ++ ind ++ [34] ++ k ++ [34; 58; 32] ++ v)).
  { apply texty_app; [apply asc1; lia|]. apply texty_app; [apply texty_asc, A|]. apply texty_app; [apply asc1; lia|]. apply texty_app; [exact K|]. apply texty_app; [apply texty_asc; repeat (constructor; [lia|]); constructor|exact V]. }
  destruct fs as [|f fs]; [exact X|]. replace ([10] ++ ind ++ [34] ++ k ++ [34; 58; 32] ++ v ++ [44] ++ json_fields ind (f :: fs)) with (([10] ++ ind ++ [34] ++ k ++ [34; 58; 32] ++ v) ++ [44] ++ json_fields ind (f :: fs)) by (rewrite <- !app_assoc; reflexivity).
  apply texty_app; [exact X|]. apply texty_app; [apply asc1; lia|exact IH].
Qed.
Lemma object_texty d fs : Forall (fun f => texty (fst f) /\ texty (snd f)) fs -> texty (json_object d fs).
Proof.
  intros F. unfold json_object. apply texty_app; [apply asc1; lia|]. apply texty_app; [apply fields_texty; [apply asc_repeat; lia|exact F]|].
  apply texty_app; [apply asc1; lia|]. apply texty_app; [apply texty_asc, asc_repeat; lia|apply asc1; lia].
Qed.
Lemma elements_texty ind vs : asc ind -> Forall texty vs -> texty (json_elements ind vs).
Proof.
  intros A. induction 1 as [|v vs V F IH]; [exact texty_nil|]. cbn [json_elements].
  assert (X : texty ([10] ++ ind ++ v)) by (apply texty_app; [apply asc1; lia|]; apply texty_app; [apply texty_asc, A|exact V]).
  destruct vs as [|w vs]; [exact X|]. replace ([10] ++ ind ++ v ++ [44] ++ json_elements ind (w :: vs)) with (([10] ++ ind ++ v) ++ [44] ++ json_elements ind (w :: vs)) by (rewrite <- !app_assoc; reflexivity).
  apply texty_app; [exact X|]. apply texty_app; [apply asc1; lia|exact IH].
Qed.
Lemma array_texty d vs : Forall texty vs -> texty (json_array d vs).
Proof.
  intros F. unfold json_array. destruct vs as [|v vs]; [apply texty_asc; repeat (constructor; [lia|]); constructor|].
  apply texty_app; [apply asc1; lia|]. apply texty_app; [apply elements_texty; [apply asc_repeat; lia|exact F]|].
  apply texty_app; [apply asc1; lia|]. apply texty_app; [apply texty_asc, asc_repeat; lia|apply asc1; lia].
Qed.
Lemma bs_texty s : forallb (fun c => c <? 128) (bs s) = true -> texty (bs s).
Proof. intros H. apply texty_asc, asc_bs, H. Qed.
Ltac fields := repeat (apply Forall_cons; [split; cbn [fst snd]|]); try apply Forall_nil.
Lemma marshal_texty c : texty (marshal c).
Proof.
  assert (K : forall k, In k [k_IndexRoot; k_SeqLen; k_NumShards; k_NumShatters; k_DocFlushRate; k_TokenConfig; k_BlotConfig; k_Name; k_Interleave] -> texty k).
  { intros k I. apply texty_asc. apply Forall_forall. intros x Ix. assert (B : forallb (forallb (fun c => c <? 128)) [k_IndexRoot; k_SeqLen; k_NumShards; k_NumShatters; k_DocFlushRate; k_TokenConfig; k_BlotConfig; k_Name; k_Interleave] = true) by reflexivity.
    rewrite forallb_forall in B. specialize (B k I). rewrite forallb_forall in B. apply N.ltb_lt, B, Ix. }
  unfold marshal. apply object_texty. fields; try (apply K; cbn [In]; tauto); try apply string_texty; try apply int_texty; apply object_texty; fields; try (apply K; cbn [In]; tauto); try apply string_texty; apply int_texty.
Qed.
Lemma entry_texty e : texty (json_entry e).
Proof.
  assert (P : forall n, texty (print_dec n)) by (intros n; apply texty_asc, asc_digits).
  unfold json_entry. apply array_texty. constructor; [|constructor]. apply object_texty. fields; try (apply bs_texty; reflexivity); [apply P|].
  unfold json_docs. destruct (be_docs e) as [ds|]; [|apply bs_texty; reflexivity]. apply array_texty. apply Forall_forall. intros t I. apply in_map_iff in I. destruct I as ([[p s] f] & <- & _).
  unfold json_doc. apply object_texty. fields; try (apply bs_texty; reflexivity); [apply string_texty|apply P|apply P].
Qed.
Lemma some_eq {A} (a b : A) : Some a = Some b -> b = a.
Proof. intros E. injection E as ->. reflexivity. Qed.
Lemma float_texty x t : json_float x = Some t -> texty t.
Proof.
  unfold json_float. destruct x as [a| |]; try discriminate. destruct (Qeq_bool a 0); [intros E; injection E as <-; apply (asc1 48); lia|].
  destruct (shortest (Qabs.Qabs a)) as [d e]. intros E.
  match type of E with Some ?s = _ => assert (A : asc s) end; [|apply some_eq in E; rewrite E; apply texty_asc, A]. clear E t.
  pose proof (asc_digits 1400 (Z.to_N d)) as D. generalize dependent (digits 1400 (Z.to_N d)). intros ds D. clear d.
  apply asc_app; [destruct (Qle_bool 0 a); [constructor|apply asc_bs; reflexivity]|].
  destruct (negb (Qle_bool millionth (Qabs.Qabs a)) || Qle_bool (inject_Z (10 ^ 21)) (Qabs.Qabs a)); clear a.
  - unfold format_e. apply asc_app; [apply asc_firstn, D|]. apply asc_app.
    + pose proof (asc_skipn 1 ds D) as D1. destruct (skipn 1 ds); [constructor|]. apply asc_app; [apply asc_bs; reflexivity|exact D1].
    + apply asc_app; [apply asc_bs; reflexivity|]. apply asc_app; [destruct (_ <? 0)%Z; apply asc_bs; reflexivity|].
      cbv zeta. destruct (_ && _); [constructor; [lia|]|]; apply asc_digits.
  - unfold format_f. cbv zeta. destruct (0 <=? e)%Z; [apply asc_app; [exact D|apply asc_repeat; lia]|].
    destruct (_ <? _)%nat; [apply asc_app; [apply asc_firstn, D|]; apply asc_app; [apply asc_bs; reflexivity|apply asc_skipn, D]|].
    apply asc_app; [apply asc_bs; reflexivity|]. apply asc_app; [apply asc_repeat; lia|exact D].
Qed.
Lemma inspect_texty fuse ix t : inspect_json fuse ix = Some t -> texty t.
Proof.
  unfold inspect_json. destruct (json_float (blot_mean ix)) as [m|] eqn:Em; [|discriminate]. destruct (json_float (blot_sigma fuse ix)) as [s|] eqn:Es; [|discriminate].
  intros E. match type of E with Some ?s = _ => assert (A : texty s) end; [|apply some_eq in E; rewrite E; exact A]. clear E.
  assert (P : forall n, texty (print_u64 n)) by (intros n; apply texty_asc, asc_digits).
  apply object_texty. fields; try (apply bs_texty; reflexivity); try apply P; [apply string_texty|exact (float_texty _ _ Em)|exact (float_texty _ _ Es)].
Qed.
Lemma texts_of prs vs : Forall2 (fun pr v => (reads_as pr v /\ too_deep v = false) /\ exists r, pr = 91 :: r) prs vs -> Forall texty prs -> texts vs (concat prs).
Proof.
  induction 1 as [|pr v prs vs [[R S] _] F IH]; intros T; [constructor|]. inversion T; subst. cbn [concat]. constructor; [|apply IH; assumption].
  apply (parse_out pr v); [assumption|]. exact (reads_parse pr v S R).
Qed.

(** * What is read can be written *)
Inductive utf : jval -> Prop :=
| u_null : utf JNull
| u_bool b : utf (JBool b)
| u_num l : utf (JNum l)
| u_str s : texty s -> utf (JStr s)
| u_arr vs : Forall utf vs -> utf (JArr vs)
| u_obj ms : Forall (fun m => utf (snd m)) ms -> utf (JObj ms).
Lemma hex_small c d : hex c d -> d < 16.
Proof. unfold hex. lia. Qed.
Lemma chars_scalar cs t : chars cs t -> Forall scalar cs.
Proof.
  assert (H4 : forall x h, hex_4 x h -> x < 65536).
  { intros x h [a b c d p q r s A B C D]. apply hex_small in A, B, C, D. lia. }
  induction 1 as [|r rs t S ? ? ? H IH|e r rs t I H IH|x h rs t X A B H IH|x h y h' rs t X A Y B H IH|x h rs t X A B H IH]; constructor; try exact IH.
  - exact S.
  - left. cbn [In] in I. repeat destruct I as [I|I]; try contradiction; injection I as <- <-; lia.
  - apply H4 in X. unfold scalar, high_half, low_half in *. lia.
  - unfold scalar, of_pair, high_half, low_half in *. lia.
  - unfold scalar. lia.
Qed.
Lemma chars_texty cs t : chars cs t -> texty (utf8s cs).
Proof. intros C. exists cs. split; [exact (chars_scalar cs t C)|reflexivity]. Qed.
Lemma value_utf : (forall v t, value v t -> utf v) /\ (forall vs t, elements vs t -> Forall utf vs) /\ (forall ms t, members ms t -> Forall (fun m => utf (snd m)) ms).
Proof. apply json_mut; intros; try (constructor; auto; fail); constructor. eapply chars_texty. eassumption. Qed.
Lemma given_in name ms vs : given name ms vs -> Forall (fun m => utf (snd m)) ms -> Forall utf vs.
Proof. induction 1 as [|k v ms vs A B G IH|k v ms vs A G IH]; intros F; [constructor| |]; inversion F; subst; [constructor; auto|auto]. Qed.
Lemma last_in {A} (P : A -> Prop) l d : Forall P l -> P d -> P (last l d).
Proof. intros F D. induction F as [|x l X F IH]; [exact D|]. destruct l; [exact X|exact IH]. Qed.
Lemma int_of_64 name ms z : int_of name ms z -> int64 z.
Proof.
  intros (vs & zs & _ & F & ->). apply last_in; [|unfold int64; lia]. induction F as [|v z vs zs [I _] F IH]; constructor; assumption.
Qed.
Lemma str_of_text name ms s : str_of name ms s -> Forall (fun m => utf (snd m)) ms -> texty s.
Proof.
  intros (vs & ss & G & F & ->) U. apply last_in; [|exact texty_nil]. pose proof (given_in _ _ _ G U) as Uv. clear G U.
  induction F as [|v s vs ss -> F IH]; inversion Uv as [|? ? X ?]; subst; constructor; [inversion X; assumption|auto].
Qed.
Lemma obj_of_utf name ms ms' : obj_of name ms ms' -> Forall (fun m => utf (snd m)) ms -> Forall (fun m => utf (snd m)) ms'.
Proof.
  intros (vs & mss & G & F & ->) U. pose proof (given_in _ _ _ G U) as Uv. clear G U.
  induction F as [|v m vs mss -> F IH]; inversion Uv as [|? ? X ?]; subst; cbn [List.concat]; [constructor|]. apply Forall_app. split; [inversion X; assumption|auto].
Qed.
Lemma configures_values d c : configures d c -> cfg_values c.
Proof.
  intros (v & (w & t & w' & _ & _ & V & _) & _ & (ms & tk & bl & Hv & A1 & A2 & A3 & A4 & A5 & A6 & A7 & A8 & A9 & A10)).
  assert (U : Forall (fun m => utf (snd m)) ms) by (destruct Hv as [[_ ->]| ->]; [constructor|]; apply (proj1 value_utf) in V; inversion V; assumption).
  constructor; try (eapply int_of_64; eassumption); [exact (str_of_text _ _ _ A1 U)|]. exact (str_of_text _ _ _ A7 (obj_of_utf _ _ _ A6 U)).
Qed.
