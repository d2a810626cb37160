(** What Model/Json makes of a JSON value is the configuration that Spec/JsonText says. *)
From Coq Require Import String.
From Verif Require Import Model.Base Model.Utf8 Model.Blotter Model.Config Model.Json Spec.Str Spec.Text Spec.Configs Spec.JsonText Proof.Tactics Proof.Utf8P Proof.JsonTextP.
From Coq Require Import Lia.
Local Open Scope N_scope.
Local Open Scope list_scope.
Local Notation digit := JsonText.digit.

(** * Names *)
Lemma eq_bytes_iff a : forall b, eq_bytes a b = true <-> a = b.
Proof.
  induction a as [|x a IH]; intros [|y b]; cbn [eq_bytes]; try (split; [discriminate || reflexivity|discriminate || reflexivity]).
  rewrite andb_true_iff, N.eqb_eq, IH. split; [intros [-> ->]; reflexivity|]. intros E. injection E as -> ->. split; reflexivity.
Qed.
Lemma range_text fuel : forall i s, (List.length s <= fuel)%nat -> Forall (fun r => r <> rune_error) (map snd (range_loop fuel i s)) ->
  is_text s (map snd (range_loop fuel i s)).
Proof.
  induction fuel as [|k IH]; intros i s L F; (destruct s as [|c s]; [split; [constructor|reflexivity]|]); [cbn in L; lia|].
  cbn [range_loop] in *. destruct (decode_rune (c :: s)) as [[r n]|] eqn:D.
  - destruct (decode_inv _ _ _ D) as (Sc & Hn & Es). cbn [map snd] in *. inversion F; subst. pose proof (utf8_nonempty r).
    destruct (IH (i + List.length (utf8 r))%nat (skipn (List.length (utf8 r)) (c :: s))) as [F' E']; [rewrite skipn_length; cbn [List.length] in *; lia|assumption|].
    split; [constructor; assumption|]. rewrite utf8s_cons, <- E'. exact Es.
  - cbn [map snd] in F. inversion F; subst. congruence.
Qed.
Definition letters (s : bytes) : bool := forallb (fun c => in_range 65 90 c || in_range 97 122 c) s.
Lemma fold_letter a r : in_range 65 90 a || in_range 97 122 a = true -> (fold_rune a = fold_rune r <-> same_letter a r).
Proof.
  unfold in_range, fold_rune, same_letter. rewrite orb_true_iff, !andb_true_iff, !N.leb_le. intros H. unfold in_range.
  destruct (N.leb_spec 65 a), (N.leb_spec a 90); cbn [andb]; try lia;
  repeat match goal with |- context [?x =? ?y] => destruct (N.eqb_spec x y); try lia end;
  destruct (N.leb_spec 65 r), (N.leb_spec r 90); cbn [andb]; lia.
Qed.
Lemma fold_names name : forall rs, letters name = true -> (map fold_rune name = map fold_rune rs <-> Forall2 same_letter name rs).
Proof.
  induction name as [|a name IH]; intros [|r rs] L; cbn [map]; try (split; [discriminate|intros H; inversion H]); [split; [constructor|reflexivity]|].
  cbn [letters forallb] in L. apply andb_true_iff in L. destruct L as [La Ln]. split.
  - intros E. injection E as E1 E2. constructor; [apply fold_letter; assumption|apply IH; assumption].
  - intros H. inversion H; subst. f_equal; [apply fold_letter; assumption|apply IH; assumption].
Qed.
Lemma ascii_range name : letters name = true -> map snd (range_string name) = name.
Proof.
  intros L. assert (T : is_text name name).
  { split.
    - apply Forall_forall. intros c I. unfold letters in L. rewrite forallb_forall in L. specialize (L c I). apply orb_true_iff in L. unfold in_range in L. rewrite !andb_true_iff, !N.leb_le in L. left. lia.
    - induction name as [|c name IH]; [reflexivity|]. cbn [letters forallb] in L. apply andb_true_iff in L. destruct L as [Lc L]. rewrite utf8s_cons, <- (IH L), (utf8_small c); [reflexivity|].
      apply orb_true_iff in Lc. unfold in_range in Lc. rewrite !andb_true_iff, !N.leb_le in Lc. lia. }
  rewrite (range_string_text name name T). apply positions_runes.
Qed.
Lemma fold_key_map k : fold_key k = map fold_rune (map snd (range_string k)).
Proof. unfold fold_key. rewrite map_map. reflexivity. Qed.
Lemma is_field_named name k : letters name = true -> (is_field name k = true <-> named name k).
Proof.
  intros L. unfold is_field. rewrite eq_bytes_iff, !fold_key_map, (ascii_range name L). split.
  - intros E. apply (fold_names name _ L) in E. exists (map snd (range_string k)). split; [|exact E].
    apply range_text; [lia|]. unfold letters in L. rewrite forallb_forall in L. fold (range_string k).
    assert (G : forall n rs, Forall2 same_letter n rs -> (forall x, In x n -> x < 128) -> Forall (fun r => r <> rune_error) rs).
    { induction 1 as [|a r n rs S F IH]; intros B; [constructor|]. constructor; [|apply IH; intros x I; apply B; right; exact I].
      specialize (B a (or_introl eq_refl)). unfold same_letter, rune_error in *. lia. }
    apply (G name _ E). intros x I. specialize (L x I). apply orb_true_iff in L. unfold in_range in L. rewrite !andb_true_iff, !N.leb_le in L. lia.
  - intros (rs & T & F). rewrite (range_string_text k rs T), positions_runes. apply (fold_names name rs L), F.
Qed.
Lemma one_name a b k : is_field a k = true -> is_field b k = true -> fold_key a = fold_key b.
Proof. unfold is_field. rewrite !eq_bytes_iff. congruence. Qed.

(** * One field *)
Section Field.
  Context {T : Type} (dec : jval -> T -> option T) (means : jval -> T -> Prop) (name : bytes).
  Hypotheses (Nl : letters name = true) (Dn : forall old, dec JNull old = Some old)
    (Dv : forall v old x, v <> JNull -> (dec v old = Some x <-> means v x)).
  Definition one_field (k : bytes) (v : jval) (st : T) : option T := if is_field name k then dec v st else Some st.
  Lemma field_spec ms : forall st x, dec_members one_field ms st = Some x <->
    exists vs xs, given name ms vs /\ Forall2 means vs xs /\ x = last xs st.
  Proof.
    induction ms as [|[k v] ms IH]; intros st x; cbn [dec_members].
    - split.
      + intros E. injection E as <-. exists [], []. repeat split; constructor.
      + intros (vs & xs & G & F & ->). inversion G; subst. inversion F; subst. reflexivity.
    - unfold one_field at 1. split.
      + intros E. destruct (is_field name k) eqn:Ek.
        * apply (is_field_named name k Nl) in Ek. destruct (dec v st) as [st'|] eqn:Ed; [|discriminate]. apply IH in E. destruct E as (vs & xs & G & F & ->).
          assert (Dc : v = JNull \/ v <> JNull) by (destruct v; (left; reflexivity) || (right; discriminate)). destruct Dc as [->|Nn].
          -- rewrite Dn in Ed. injection Ed as <-. exists vs, xs. split; [|split; [exact F|reflexivity]]. constructor; [right; reflexivity|exact G].
          -- exists (v :: vs), (st' :: xs). split; [constructor; assumption|]. split; [constructor; [apply (Dv v st); assumption|exact F]|].
             destruct xs as [|x0 xs]; [reflexivity|]. cbn [last]. clear. revert x0. induction xs as [|x1 xs IHx]; intros x0; [reflexivity|]. exact (IHx x1).
        * apply IH in E. destruct E as (vs & xs & G & F & ->). exists vs, xs. split; [|split; [exact F|reflexivity]]. constructor; [left|exact G].
          intros H. apply (is_field_named name k Nl) in H. congruence.
      + intros (vs & xs & G & F & ->). inversion G as [|? ? ? ? Hn Nn G'|? ? ? ? Ho G']; subst.
        * apply (is_field_named name k Nl) in Hn. rewrite Hn. inversion F as [|? x1 ? xs' M F']; subst. apply (Dv _ st) in M; [|exact Nn]. rewrite M. apply IH. eexists _, _. split; [exact G'|]. split; [exact F'|].
          destruct xs' as [|x0 xs]; [reflexivity|]. cbn [last]. clear. revert x0. induction xs as [|x2 xs IHx]; intros x0; [reflexivity|]. exact (IHx x2).
        * assert (E : (if is_field name k then dec v st else Some st) = Some st).
          { destruct (is_field name k) eqn:Ek; [|reflexivity]. apply (is_field_named name k Nl) in Ek. destruct Ho as [Ho| ->]; [contradiction|apply Dn]. }
          rewrite E. apply IH. eexists _, _. split; [exact G'|]. split; [exact F|reflexivity].
  Qed.
End Field.

(** * Integers and strings *)
Lemma undigits_spec ds : forall acc, Forall digit ds -> undigits acc ds = Some (fold_left (fun n c => 10 * n + (c - 48)) ds acc).
Proof.
  induction ds as [|c ds IH]; intros acc F; [reflexivity|]. inversion F; subst. cbn [undigits fold_left]. rewrite (proj2 (dig_in c)) by assumption. rewrite IH by assumption.
  replace (acc * 10 + (c - 48)) with (10 * acc + (c - 48)) by lia. reflexivity.
Qed.
Lemma undigits_digits ds : forall acc n, undigits acc ds = Some n -> Forall digit ds.
Proof. induction ds as [|c ds IH]; intros acc n E; [constructor|]. cbn [undigits] in E. destruct (is_dig c) eqn:D; [|discriminate]. constructor; [apply dig_in, D|exact (IH _ _ E)]. Qed.
Lemma parse_int_if l : parse_int l = match expect [45] l with
  | Some ds => match undigits 0 ds with Some n => if n <=? 9223372036854775808 then Some (- Z.of_N n)%Z else None | None => None end
  | None => match undigits 0 l with Some n => if n <? 9223372036854775808 then Some (Z.of_N n) else None | None => None end
  end.
Proof.
  destruct l as [|c l]; [reflexivity|]. cbn [expect]. destruct (N.eqb_spec 45 c) as [<-|Ne]; [destruct l; reflexivity|].
  unfold parse_int. destruct c as [|c]; [reflexivity|]. do 7 (try (destruct c as [c|c|]; try reflexivity)). congruence.
Qed.
Lemma int_spec v old z : v <> JNull -> (dec_int v old = Some z <-> integer v z).
Proof.
  intros Nn. unfold integer, int64. split.
  - destruct v as [| |l| | |]; try discriminate; [congruence|]. cbn [dec_int]. rewrite parse_int_if. destruct (expect [45] l) as [ds|] eqn:E.
    + apply expect_out in E. subst l. destruct (undigits 0 ds) as [n|] eqn:U; [|discriminate]. pose proof (undigits_digits _ _ _ U) as F. rewrite (undigits_spec _ _ F) in U. injection U as <-.
      destruct (N.leb_spec (fold_left (fun n c => 10 * n + (c - 48)) ds 0) 9223372036854775808); [|discriminate]. intros X. injection X as <-. split; [lia|]. exists ds. split; [exact F|]. right. split; reflexivity.
    + destruct (undigits 0 l) as [n|] eqn:U; [|discriminate]. pose proof (undigits_digits _ _ _ U) as F. rewrite (undigits_spec _ _ F) in U. injection U as <-.
      destruct (N.ltb_spec (fold_left (fun n c => 10 * n + (c - 48)) l 0) 9223372036854775808); [|discriminate]. intros X. injection X as <-. split; [lia|]. exists l. split; [exact F|]. left. split; reflexivity.
  - intros (I & ds & F & [(-> & ->)|(-> & ->)]); cbn [dec_int]; rewrite parse_int_if.
    + assert (expect [45] ds = None) as ->. { destruct ds as [|c ds]; [reflexivity|]. apply expect1_miss. inversion F; subst. unfold digit in *. lia. }
      rewrite (undigits_spec _ _ F). fold (count_up ds). rewrite (proj2 (N.ltb_lt _ _)) by lia. reflexivity.
    + rewrite expect_one, (undigits_spec _ _ F). fold (count_up ds). rewrite (proj2 (N.leb_le _ _)) by lia. reflexivity.
Qed.
Lemma str_spec v old s : v <> JNull -> (dec_str v old = Some s <-> v = JStr s).
Proof. intros Nn. destruct v; cbn [dec_str]; try (split; discriminate); [congruence|]. split; intros E; injection E as ->; reflexivity. Qed.
Lemma int_members name ms st z : letters (bs name) = true ->
  dec_members (one_field dec_int (bs name)) ms st = Some z <-> exists vs zs, given (bs name) ms vs /\ Forall2 integer vs zs /\ z = last zs st.
Proof. intros L. apply (field_spec dec_int integer (bs name) L); [reflexivity|]. intros v old x Nn. apply int_spec, Nn. Qed.
Lemma str_members name ms st s : letters (bs name) = true ->
  dec_members (one_field dec_str (bs name)) ms st = Some s <-> exists vs ss, given (bs name) ms vs /\ Forall2 (fun v s => v = JStr s) vs ss /\ s = last ss st.
Proof. intros L. apply (field_spec dec_str (fun v s => v = JStr s) (bs name) L); [reflexivity|]. intros v old x Nn. apply str_spec, Nn. Qed.
Lemma dec_app {S : Type} (field : bytes -> jval -> S -> option S) a : forall b st, dec_members field (a ++ b) st = match dec_members field a st with Some st => dec_members field b st | None => None end.
Proof. induction a as [|[k v] a IH]; intros b st; [reflexivity|]. cbn [app dec_members]. destruct (field k v st); [apply IH|reflexivity]. Qed.
(** An object inside: its members are those of all objects of that name. *)
Lemma obj_members {S : Type} (field : bytes -> jval -> S -> option S) name ms : letters (bs name) = true -> forall st x,
  dec_members (one_field (dec_object field) (bs name)) ms st = Some x <-> exists ms', obj_of name ms ms' /\ dec_members field ms' st = Some x.
Proof.
  intros L. unfold obj_of. induction ms as [|[k v] ms IH]; intros st x; cbn [dec_members].
  - split.
    + intros E. exists []. split; [|exact E]. exists [], []. repeat split; constructor.
    + intros (ms' & (vs & mss & G & F & ->) & E). inversion G; subst. inversion F; subst. exact E.
  - unfold one_field at 1. split.
    + intros E. destruct (is_field (bs name) k) eqn:Ek.
      * apply (is_field_named _ k L) in Ek. destruct v as [| | | | |o]; try discriminate.
        -- cbn [dec_object] in E. apply IH in E. destruct E as (ms' & (vs & mss & G & F & ->) & E). exists (List.concat mss). split; [|exact E]. exists vs, mss. split; [|split; [exact F|reflexivity]]. constructor; [right; reflexivity|exact G].
        -- cbn [dec_object] in E. destruct (dec_members field o st) as [st'|] eqn:Eo; [|discriminate]. apply IH in E. destruct E as (ms' & (vs & mss & G & F & ->) & E).
           exists (List.concat (o :: mss)). split; [exists (JObj o :: vs), (o :: mss); split; [constructor; [exact Ek|discriminate|exact G]|split; [constructor; [reflexivity|exact F]|reflexivity]]|].
           cbn [List.concat]. rewrite dec_app, Eo. exact E.
      * apply IH in E. destruct E as (ms' & (vs & mss & G & F & ->) & E). exists (List.concat mss). split; [|exact E]. exists vs, mss. split; [|split; [exact F|reflexivity]]. constructor; [left|exact G].
        intros H. apply (is_field_named _ k L) in H. congruence.
    + intros (ms' & (vs & mss & G & F & ->) & E). inversion G as [|? ? ? ? Hn Nn G'|? ? ? ? Ho G']; subst.
      * apply (is_field_named _ k L) in Hn. rewrite Hn. inversion F as [|? o ? mss' M F']; subst. cbn [List.concat] in E. rewrite dec_app in E. cbn [dec_object].
        destruct (dec_members field o st) as [st'|]; [|discriminate]. apply IH. exists (List.concat mss'). split; [|exact E]. eexists _, _. split; [exact G'|]. split; [exact F'|reflexivity].
      * assert (X : (if is_field (bs name) k then dec_object field v st else Some st) = Some st).
        { destruct (is_field (bs name) k) eqn:Ek; [|reflexivity]. apply (is_field_named _ k L) in Ek. destruct Ho as [Ho| ->]; [contradiction|reflexivity]. }
        rewrite X. apply IH. exists (List.concat mss). split; [|exact E]. eexists _, _. split; [exact G'|]. split; [exact F|reflexivity].
Qed.

(** * The configuration *)
Lemma blot_members ms : forall b b', dec_members blot_field ms b = Some b' <->
  dec_members (one_field dec_int (bs "SeqLen")) ms (bc_seqlen b) = Some (bc_seqlen b') /\
  dec_members (one_field dec_int (bs "Interleave")) ms (bc_interleave b) = Some (bc_interleave b').
Proof.
  induction ms as [|[k v] ms IH]; intros [s i] [s' i']; cbn [dec_members bc_seqlen bc_interleave].
  - split; [intros E; injection E as -> ->; split; reflexivity|]. intros [A B]. congruence.
  - unfold blot_field at 1, one_field at 1 3. change k_SeqLen with (bs "SeqLen"). change k_Interleave with (bs "Interleave"). cbn [bc_seqlen bc_interleave].
    destruct (is_field (bs "SeqLen") k) eqn:E1.
    + destruct (is_field (bs "Interleave") k) eqn:E2; [pose proof (one_name _ _ _ E1 E2) as X; discriminate X|].
      destruct (dec_int v s) as [z|]; cbn [option_map]; [|split; [discriminate|intros [X _]; discriminate X]]. apply (IH (MkBlotConfig z i) (MkBlotConfig s' i')).
    + destruct (is_field (bs "Interleave") k) eqn:E2.
      * destruct (dec_int v i) as [z|]; cbn [option_map]; [|split; [discriminate|intros [_ X]; discriminate X]]. apply (IH (MkBlotConfig s z) (MkBlotConfig s' i')).
      * apply (IH (MkBlotConfig s i) (MkBlotConfig s' i')).
Qed.
Lemma token_members ms : forall s, dec_members token_field ms s = dec_members (one_field dec_str (bs "Name")) ms s.
Proof. induction ms as [|[k v] ms IH]; intros s; [reflexivity|]. cbn [dec_members]. unfold token_field at 1, one_field at 1. change k_Name with (bs "Name"). destruct (if is_field (bs "Name") k then _ else _); [apply IH|reflexivity]. Qed.
Ltac other E X := match goal with |- context [is_field ?n ?k] => let H := fresh in destruct (is_field n k) eqn:H; [pose proof (one_name _ _ _ E H) as X; discriminate X|] end.
Lemma config_members ms : forall c c', dec_members config_field ms c = Some c' <->
  dec_members (one_field dec_str (bs "IndexRoot")) ms (cf_root c) = Some (cf_root c') /\
  dec_members (one_field dec_int (bs "SeqLen")) ms (cf_seqlen c) = Some (cf_seqlen c') /\
  dec_members (one_field dec_int (bs "NumShards")) ms (cf_numshards c) = Some (cf_numshards c') /\
  dec_members (one_field dec_int (bs "NumShatters")) ms (cf_numshatters c) = Some (cf_numshatters c') /\
  dec_members (one_field dec_int (bs "DocFlushRate")) ms (cf_flush c) = Some (cf_flush c') /\
  dec_members (one_field (dec_object token_field) (bs "TokenConfig")) ms (cf_token c) = Some (cf_token c') /\
  dec_members (one_field (dec_object blot_field) (bs "BlotConfig")) ms (cf_blot c) = Some (cf_blot c').
Proof.
  induction ms as [|[k v] ms IH]; intros [c1 c2 c3 c4 c5 c6 c7] c'.
  - cbn [dec_members cf_root cf_seqlen cf_numshards cf_numshatters cf_flush cf_token cf_blot]. split.
    + intros E. injection E as <-. cbn. repeat split; reflexivity.
    + intros (A & B & C & D & E & F & G). destruct c'. cbn in *. congruence.
  - assert (Fl : forall A (dec : jval -> A -> option A) n st, dec_members (one_field dec n) ((k, v) :: ms) st =
      match (if is_field n k then dec v st else Some st) with Some st => dec_members (one_field dec n) ms st | None => None end) by reflexivity.
    rewrite !Fl. clear Fl. cbn [dec_members]. unfold config_field at 1.
    change k_IndexRoot with (bs "IndexRoot"). change k_SeqLen with (bs "SeqLen"). change k_NumShards with (bs "NumShards"). change k_NumShatters with (bs "NumShatters").
    change k_DocFlushRate with (bs "DocFlushRate"). change k_TokenConfig with (bs "TokenConfig"). change k_BlotConfig with (bs "BlotConfig").
    cbn [cf_root cf_seqlen cf_numshards cf_numshatters cf_flush cf_token cf_blot].
    destruct (is_field (bs "IndexRoot") k) eqn:E.
    { repeat other E X. destruct (dec_str v c1) as [x|]; cbn [option_map]; [apply (IH (MkConfig x c2 c3 c4 c5 c6 c7) c')|]. split; [discriminate|intros All; decompose [and] All; discriminate]. }
    clear E. destruct (is_field (bs "SeqLen") k) eqn:E.
    { repeat other E X. destruct (dec_int v c2) as [x|]; cbn [option_map]; [apply (IH (MkConfig c1 x c3 c4 c5 c6 c7) c')|]. split; [discriminate|intros All; decompose [and] All; discriminate]. }
    clear E. destruct (is_field (bs "NumShards") k) eqn:E.
    { repeat other E X. destruct (dec_int v c3) as [x|]; cbn [option_map]; [apply (IH (MkConfig c1 c2 x c4 c5 c6 c7) c')|]. split; [discriminate|intros All; decompose [and] All; discriminate]. }
    clear E. destruct (is_field (bs "NumShatters") k) eqn:E.
    { repeat other E X. destruct (dec_int v c4) as [x|]; cbn [option_map]; [apply (IH (MkConfig c1 c2 c3 x c5 c6 c7) c')|]. split; [discriminate|intros All; decompose [and] All; discriminate]. }
    clear E. destruct (is_field (bs "DocFlushRate") k) eqn:E.
    { repeat other E X. destruct (dec_int v c5) as [x|]; cbn [option_map]; [apply (IH (MkConfig c1 c2 c3 c4 x c6 c7) c')|]. split; [discriminate|intros All; decompose [and] All; discriminate]. }
    clear E. destruct (is_field (bs "TokenConfig") k) eqn:E.
    { repeat other E X. destruct (dec_object token_field v c6) as [x|]; cbn [option_map]; [apply (IH (MkConfig c1 c2 c3 c4 c5 x c7) c')|]. split; [discriminate|intros All; decompose [and] All; discriminate]. }
    clear E. destruct (is_field (bs "BlotConfig") k) eqn:E.
    { destruct (dec_object blot_field v c7) as [x|]; cbn [option_map]; [apply (IH (MkConfig c1 c2 c3 c4 c5 c6 x) c')|]. split; [discriminate|intros All; decompose [and] All; discriminate]. }
    apply (IH (MkConfig c1 c2 c3 c4 c5 c6 c7) c').
Qed.
Theorem config_spec v c : dec_object config_field v zero_config = Some c <-> gives_config v c.
Proof.
  assert (M : forall ms, dec_members config_field ms zero_config = Some c <->
    (exists tk bl, str_of "IndexRoot" ms (cf_root c) /\ int_of "SeqLen" ms (cf_seqlen c) /\ int_of "NumShards" ms (cf_numshards c) /\
     int_of "NumShatters" ms (cf_numshatters c) /\ int_of "DocFlushRate" ms (cf_flush c) /\
     obj_of "TokenConfig" ms tk /\ str_of "Name" tk (cf_token c) /\
     obj_of "BlotConfig" ms bl /\ int_of "SeqLen" bl (bc_seqlen (cf_blot c)) /\ int_of "Interleave" bl (bc_interleave (cf_blot c)))).
  { intros ms. rewrite config_members. unfold zero_config. cbn [cf_root cf_seqlen cf_numshards cf_numshatters cf_flush cf_token cf_blot].
    rewrite !int_members, str_members, !obj_members by reflexivity. unfold int_of, str_of. split.
    - intros (A & B & C & D & E & (tk & F1 & F2) & (bl & G1 & G2)). exists tk, bl. rewrite token_members, str_members in F2 by reflexivity.
      apply blot_members in G2. cbn [bc_seqlen bc_interleave] in G2. rewrite !int_members in G2 by reflexivity. destruct G2 as [G2 G3]. repeat (split; [assumption|]). assumption.
    - intros (tk & bl & A & B & C & D & E & F1 & F2 & G1 & G2 & G3). repeat (split; [assumption|]). split.
      + exists tk. split; [exact F1|]. rewrite token_members, str_members by reflexivity. exact F2.
      + exists bl. split; [exact G1|]. apply blot_members. cbn [bc_seqlen bc_interleave]. rewrite !int_members by reflexivity. split; assumption. }
  unfold gives_config. split.
  - intros E. destruct v as [| | | | |ms]; try discriminate; cbn [dec_object] in E.
    + apply (M []) in E. destruct E as (tk & bl & E). exists [], tk, bl. split; [left; split; reflexivity|exact E].
    + apply (M ms) in E. destruct E as (tk & bl & E). exists ms, tk, bl. split; [right; reflexivity|exact E].
  - intros (ms & tk & bl & [(-> & ->)| ->] & H); cbn [dec_object].
    + apply (M []). exists tk, bl. exact H.
    + apply M. exists tk, bl. exact H.
Qed.
