(** A JSON object that has been cut short is not read. *)
From Verif Require Import Model.Base Model.Utf8 Model.Blotter Model.Config Model.Json Spec.Text Spec.Configs Proof.Tactics Proof.Utf8P Proof.JsonP Proof.ConfigP.
Local Open Scope N_scope.

Definition all_high (s : bytes) : Prop := Forall (fun c => 128 <= c) s.
Lemma high_skipn n s : all_high s -> all_high (skipn n s).
Proof. intros H. revert n. induction H as [|c s A H IH]; intros [|n]; cbn [skipn]; [constructor|constructor|constructor; assumption|apply IH]. Qed.
Lemma scan_high_none k : forall s, all_high s -> scan_string k s = None.
Proof.
  induction k as [|k IH]; intros s H; [reflexivity|]. destruct H as [|c s A H]; [reflexivity|]. cbn [scan_string].
  destruct (N.eqb_spec c 34); [lia|]. destruct (N.eqb_spec c 92); [lia|]. destruct (N.ltb_spec c 32); [lia|]. destruct (N.ltb_spec c 128); [lia|].
  destruct (decode_rune (c :: s)) as [[x w]|].
  - rewrite IH; [reflexivity|]. apply high_skipn. constructor; assumption.
  - rewrite IH by exact H. reflexivity.
Qed.
Lemma in_range_high lo hi b : 128 <= lo -> in_range lo hi b = true -> 128 <= b.
Proof. unfold in_range. lia. Qed.
Lemma lead_lo b sz lo hi : lead b = Some (sz, lo, hi) -> 128 <= lo.
Proof. unfold lead. intros H. repeat (match type of H with (if ?c then _ else _) = _ => destruct c end); inversion H; lia. Qed.
Lemma decode_ext p t : (exists x n, decode_rune p = Some (x, n) /\ decode_rune (p ++ t) = Some (x, n) /\ (n <= length p)%nat) \/
  (decode_rune p = None /\ (decode_rune (p ++ t) = None \/ all_high p)).
Proof.
  destruct p as [|b0 p]; [right; split; [reflexivity|right; constructor]|]. cbn [app]. unfold decode_rune.
  destruct (N.ltb_spec b0 128). { left. eexists _, _. split; [reflexivity|]. split; [reflexivity|]. cbn [length]. lia. }
  destruct (lead b0) as [[[sz lo] hi]|] eqn:E; [|right; auto]. apply lead_lo in E.
  assert (G : forall b l, 128 <= b -> all_high l -> all_high (b :: l)) by (intros; constructor; assumption).
  destruct p as [|b1 p]; cbn [app]. { right. split; [reflexivity|]. right. apply G; [assumption|constructor]. }
  destruct (in_range lo hi b1) eqn:E1; cbn [negb]; [|right; auto]. apply in_range_high in E1; [|exact E].
  destruct (sz <=? 2)%nat. { left. eexists _, _. split; [reflexivity|]. split; [reflexivity|]. cbn [length]. lia. }
  destruct p as [|b2 p]; cbn [app]. { right. split; [reflexivity|]. right. repeat apply G; try assumption. constructor. }
  destruct (in_range 128 191 b2) eqn:E2; cbn [negb]; [|right; auto]. apply in_range_high in E2; [|lia].
  destruct (sz <=? 3)%nat. { left. eexists _, _. split; [reflexivity|]. split; [reflexivity|]. cbn [length]. lia. }
  destruct p as [|b3 p]; cbn [app]. { right. split; [reflexivity|]. right. repeat apply G; try assumption. constructor. }
  destruct (in_range 128 191 b3) eqn:E3; cbn [negb]; [|right; auto].
  left. eexists _, _. split; [reflexivity|]. split; [reflexivity|]. cbn [length]. lia.
Qed.

Definition add_str (x : bytes) (y : option (bytes * bytes)) := match y with Some (t, r) => Some (x ++ t, r) | None => None end.
(** The second half of a surrogate pair. *)
Definition pair_at (x : N) (r2 : bytes) : option (N * bytes) :=
  match expect [92; 117] r2 with
  | Some r3 => match hex4 r3 with
               | Some (y, r4) => if (x <? 56320) && in_range 56320 57343 y then Some (65536 + (x - 55296) * 1024 + (y - 56320), r4) else None
               | None => None
               end
  | None => None
  end.
Ltac pos7 p := do 7 (try (destruct p as [p|p|]; try reflexivity; try discriminate)).
Lemma scan_step k c r : scan_string (S k) (c :: r) =
  if c =? 34 then Some ([], r)
  else if c =? 92 then
    match r with
    | [] => None
    | e :: r1 =>
        if e =? 117 then
          match hex4 r1 with
          | None => None
          | Some (x, r2) =>
              if in_range 55296 57343 x then
                match pair_at x r2 with
                | Some (z, r4) => add_str (encode_rune z) (scan_string k r4)
                | None => add_str (encode_rune rune_error) (scan_string k r2)
                end
              else add_str (encode_rune x) (scan_string k r2)
          end
        else match unescape e with Some x => add_str [x] (scan_string k r1) | None => None end
    end
  else if c <? 32 then None
  else if c <? 128 then add_str [c] (scan_string k r)
  else match decode_rune (c :: r) with
       | None => add_str (encode_rune rune_error) (scan_string k r)
       | Some (_, n) => add_str (firstn n (c :: r)) (scan_string k (skipn n (c :: r)))
       end.
Proof.
  cbn [scan_string]. destruct (c =? 34); [reflexivity|]. destruct (c =? 92); [|reflexivity].
  destruct r as [|e r1]; [reflexivity|]. destruct (N.eqb_spec e 117) as [->|Ne].
  - destruct (hex4 r1) as [[x r2]|]; [|reflexivity]. destruct (in_range 55296 57343 x); [|reflexivity]. unfold pair_at.
    destruct r2 as [|a r2]; [reflexivity|]. cbn [expect]. destruct (N.eqb_spec 92 a) as [<-|Na].
    + destruct r2 as [|b r3]; [reflexivity|]. cbn [expect]. destruct (N.eqb_spec 117 b) as [<-|Nb].
      * cbn [expect]. destruct (hex4 r3) as [[y r4]|]; [|reflexivity]. destruct ((x <? 56320) && in_range 56320 57343 y); reflexivity.
      * destruct b as [|b]; [reflexivity|]. pos7 b; lia.
    + destruct a as [|a]; [reflexivity|]. pos7 a; lia.
  - destruct e as [|e]; [reflexivity|]. pos7 e; lia.
Qed.
Lemma hex4_ext r t x r2 : hex4 r = Some (x, r2) -> hex4 (r ++ t) = Some (x, r2 ++ t).
Proof.
  destruct r as [|a [|b [|c [|d r]]]]; try discriminate. cbn [app hex4].
  destruct (hex_value a), (hex_value b), (hex_value c), (hex_value d); try discriminate. intros X. inversion X. reflexivity.
Qed.
Lemma expect_ext w : forall s t r, expect w s = Some r -> expect w (s ++ t) = Some (r ++ t).
Proof.
  induction w as [|a w IH]; intros s t r H; cbn [expect] in *; [congruence|]. destruct s as [|b s]; [discriminate|]. cbn [app].
  destruct (a =? b); [eauto|discriminate].
Qed.
Lemma add_some x y t r : add_str x y = Some (t, r) -> exists t', y = Some (t', r) /\ t = x ++ t'.
Proof. destruct y as [[t' r']|]; [|discriminate]. intros H. inversion H. eauto. Qed.

Lemma hex4_short r t : hex4 r = None -> (4 <= length r)%nat -> hex4 (r ++ t) = None.
Proof.
  destruct r as [|a [|b [|c [|d r]]]]; cbn [length]; intros H L; try lia. cbn [app hex4] in *.
  destruct (hex_value a), (hex_value b), (hex_value c), (hex_value d); (discriminate || reflexivity).
Qed.
(** What is read from a beginning of the text is read from all of it. *)
Lemma scan_string_ext k : forall k' p t x r, (k <= k')%nat -> scan_string k p = Some (x, r) -> scan_string k' (p ++ t) = Some (x, r ++ t).
Proof.
  induction k as [|k IH]; intros k' p t x r L H; [discriminate|]. destruct k' as [|k']; [lia|].
  assert (L' : (k <= k')%nat) by lia. clear L. destruct p as [|c p]; [discriminate|].
  cbn [app]. rewrite scan_step in *. destruct (c =? 34); [inversion H; reflexivity|].
  destruct (c =? 92).
  - destruct p as [|e p]; [discriminate|]. cbn [app]. destruct (e =? 117).
    + destruct (hex4 p) as [[y r2]|] eqn:E; [|discriminate]. rewrite (hex4_ext _ t _ _ E).
      destruct (in_range 55296 57343 y).
      * destruct (pair_at y r2) as [[z r4]|] eqn:Ep.
        -- apply add_some in H. destruct H as (t' & H & ->).
           assert (Ep' : pair_at y (r2 ++ t) = Some (z, r4 ++ t)).
           { unfold pair_at in *. destruct (expect [92; 117] r2) as [r3|] eqn:Ex; [|discriminate]. rewrite (expect_ext _ _ t _ Ex).
             destruct (hex4 r3) as [[w r5]|] eqn:Eh; [|discriminate]. rewrite (hex4_ext _ t _ _ Eh). destruct (_ && _); [congruence|discriminate]. }
           rewrite Ep', (IH _ _ t _ _ L' H). reflexivity.
        -- apply add_some in H. destruct H as (t' & H & ->).
           destruct (pair_at y (r2 ++ t)) as [[z r4]|] eqn:Ep'; [exfalso|rewrite (IH _ _ t _ _ L' H); reflexivity].
           (* the pair is cut, so the text ends in the middle of an escape *)
           unfold pair_at in *. destruct r2 as [|a r2]; [destruct k; discriminate|]. cbn [app expect] in *.
           destruct (N.eqb_spec 92 a) as [<-|Na]; [|discriminate].
           destruct k as [|k]; [discriminate|]. rewrite scan_step in H. change (92 =? 34) with false in H. change (92 =? 92) with true in H. cbv iota in H.
           destruct r2 as [|b r3]; [discriminate|]. cbn [app expect] in *. destruct (N.eqb_spec 117 b) as [<-|Nb]; [|discriminate].
           change (117 =? 117) with true in H. cbv iota in H.
           destruct (hex4 r3) as [[w r5]|] eqn:Eh; [|discriminate].
           rewrite (hex4_ext _ t _ _ Eh) in Ep'. destruct (_ && _); discriminate.
      * apply add_some in H. destruct H as (t' & H & ->). rewrite (IH _ _ t _ _ L' H). reflexivity.
    + destruct (unescape e); [|discriminate]. apply add_some in H. destruct H as (t' & H & ->). rewrite (IH _ _ t _ _ L' H). reflexivity.
  - destruct (c <? 32); [discriminate|]. destruct (N.ltb_spec c 128).
    + apply add_some in H. destruct H as (t' & H & ->). rewrite (IH _ _ t _ _ L' H). reflexivity.
    + pose proof (decode_ext (c :: p) t) as D. cbn [app] in D. destruct D as [(y & w & D1 & D2 & Ln)|(D0 & D)].
      * rewrite D1 in H. rewrite D2. apply add_some in H. destruct H as (t' & H & ->).
        change (c :: p ++ t) with ((c :: p) ++ t).
        rewrite firstn_app, skipn_app. replace (w - length (c :: p))%nat with 0%nat by lia. cbn [firstn skipn]. rewrite app_nil_r.
        rewrite (IH _ _ t _ _ L' H). reflexivity.
      * rewrite D0 in H. apply add_some in H. destruct H as (t' & H & ->). destruct D as [->|D].
        -- rewrite (IH _ _ t _ _ L' H). reflexivity.
        -- inversion D; subst. rewrite scan_high_none in H by assumption. discriminate.
Qed.

Lemma skip_ext p t : skip_space p <> [] -> skip_space (p ++ t) = skip_space p ++ t.
Proof. induction p as [|c p IH]; intros H; [exfalso; apply H; reflexivity|]. cbn [app skip_space] in *. destruct (is_space c); [auto|reflexivity]. Qed.
Lemma digits_ext p t a r : take_digits p = (a, r) -> r <> [] -> take_digits (p ++ t) = (a, r ++ t).
Proof.
  revert a r. induction p as [|c p IH]; intros a r H Ne; cbn [take_digits app] in *; [congruence|].
  destruct (is_dig c); [|inversion H; subst; reflexivity]. destruct (take_digits p) as [a1 r1]. inversion H; subst. rewrite (IH a1 r) by auto. reflexivity.
Qed.
Lemma scan_frac_if s : scan_frac s = match expect [46] s with
  | Some r => let (ds, r) := take_digits r in match ds with [] => None | _ => Some (46 :: ds, r) end
  | None => Some ([], s) end.
Proof.
  destruct s as [|c s]; [reflexivity|]. cbn [expect]. destruct (N.eqb_spec 46 c) as [<-|Ne]; [reflexivity|].
  destruct c as [|c]; [reflexivity|]. pos7 c; lia.
Qed.
Lemma expect1_none a c s t : expect [a] (c :: s) = None -> expect [a] ((c :: s) ++ t) = None.
Proof. cbn [app expect]. destruct (a =? c); congruence. Qed.
Lemma frac_ext s t l r : scan_frac s = Some (l, r) -> r <> [] -> scan_frac (s ++ t) = Some (l, r ++ t).
Proof.
  rewrite !scan_frac_if. intros H Ne. destruct (expect [46] s) as [s1|] eqn:E.
  - rewrite (expect_ext _ _ t _ E). destruct (take_digits s1) as [ds r1] eqn:Ed. destruct ds as [|d ds]; [discriminate|].
    inversion H; subst. rewrite (digits_ext _ t _ _ Ed Ne). reflexivity.
  - inversion H; subst. destruct r as [|c r]; [congruence|]. rewrite expect1_none by exact E. reflexivity.
Qed.
Lemma exp_ext s t l r : scan_exp s = Some (l, r) -> r <> [] -> scan_exp (s ++ t) = Some (l, r ++ t).
Proof.
  destruct s as [|c s]; cbn [scan_exp app]; intros H Ne; [congruence|]. destruct ((c =? 101) || (c =? 69)); [|inversion H; subst; reflexivity].
  assert (X : forall sg s1, (let (ds, r0) := take_digits s1 in match ds with [] => None | _ => Some (c :: sg ++ ds, r0) end) = Some (l, r) ->
    (let (ds, r0) := take_digits (s1 ++ t) in match ds with [] => None | _ => Some (c :: sg ++ ds, r0) end) = Some (l, r ++ t)).
  { intros sg s1 Y. destruct (take_digits s1) as [ds r1] eqn:Ed. destruct ds as [|d ds]; [discriminate|].
    inversion Y; subst. rewrite (digits_ext _ t _ _ Ed Ne). reflexivity. }
  destruct s as [|d s]; [discriminate|]. cbn [app]. destruct ((d =? 43) || (d =? 45)); [apply X, H|]. apply (X [] (d :: s) H).
Qed.
Lemma scan_number_if s : scan_number s =
  let (sg, s) := match expect [45] s with Some r => ([45], r) | None => ([], s) end in
  match (match expect [48] s with
         | Some r => Some ([48], r)
         | None => let (ds, r) := take_digits s in match ds with [] => None | _ => Some (ds, r) end
         end) with
  | None => None
  | Some (ds, r) =>
      match scan_frac r with
      | None => None
      | Some (fr, r) => match scan_exp r with None => None | Some (ex, r) => Some (sg ++ ds ++ fr ++ ex, r) end
      end
  end.
Proof.
  unfold scan_number.
  assert (A : (match s with 45 :: r => ([45], r) | _ => ([], s) end) = match expect [45] s with Some r => ([45], r) | None => ([], s) end).
  { destruct s as [|c s]; [reflexivity|]. cbn [expect]. destruct (N.eqb_spec 45 c) as [<-|Ne]; [reflexivity|]. destruct c as [|c]; [reflexivity|]. pos7 c; lia. }
  rewrite A. destruct (match expect [45] s with Some r => ([45], r) | None => ([], s) end) as [sg s1]. clear A s.
  assert (B : (match s1 with 48 :: r => Some ([48], r) | _ => let (ds, r) := take_digits s1 in match ds with [] => None | _ => Some (ds, r) end end) =
    match expect [48] s1 with Some r => Some ([48], r) | None => let (ds, r) := take_digits s1 in match ds with [] => None | _ => Some (ds, r) end end).
  { destruct s1 as [|c s]; [reflexivity|]. cbn [expect]. destruct (N.eqb_spec 48 c) as [<-|Ne]; [reflexivity|]. destruct c as [|c]; [reflexivity|]. pos7 c; lia. }
  rewrite B. reflexivity.
Qed.
Lemma frac_nonempty s l r : scan_frac s = Some (l, r) -> r <> [] -> s <> [].
Proof. intros H Ne ->. cbn in H. congruence. Qed.
Lemma exp_nonempty s l r : scan_exp s = Some (l, r) -> r <> [] -> s <> [].
Proof. intros H Ne ->. cbn in H. congruence. Qed.
Lemma number_ext s t l r : scan_number s = Some (l, r) -> r <> [] -> scan_number (s ++ t) = Some (l, r ++ t).
Proof.
  rewrite !scan_number_if. intros H Ne.
  assert (A : forall sg s1, (match (match expect [48] s1 with
         | Some r => Some ([48], r)
         | None => let (ds, r) := take_digits s1 in match ds with [] => None | _ => Some (ds, r) end
         end) with
    | None => None
    | Some (ds, r) => match scan_frac r with None => None | Some (fr, r) => match scan_exp r with None => None | Some (ex, r) => Some (sg ++ ds ++ fr ++ ex, r) end end
    end) = Some (l, r) -> (match (match expect [48] (s1 ++ t) with
         | Some r => Some ([48], r)
         | None => let (ds, r) := take_digits (s1 ++ t) in match ds with [] => None | _ => Some (ds, r) end
         end) with
    | None => None
    | Some (ds, r) => match scan_frac r with None => None | Some (fr, r) => match scan_exp r with None => None | Some (ex, r) => Some (sg ++ ds ++ fr ++ ex, r) end end
    end) = Some (l, r ++ t)).
  { intros sg s1 Y.
    assert (T : forall ds s2, match scan_frac s2 with None => None | Some (fr, r) => match scan_exp r with None => None | Some (ex, r) => Some (sg ++ ds ++ fr ++ ex, r) end end = Some (l, r) ->
      s2 <> [] /\ match scan_frac (s2 ++ t) with None => None | Some (fr, r) => match scan_exp r with None => None | Some (ex, r) => Some (sg ++ ds ++ fr ++ ex, r) end end = Some (l, r ++ t)).
    { intros ds s2 Z. destruct (scan_frac s2) as [[fr r1]|] eqn:Ef; [|discriminate]. destruct (scan_exp r1) as [[ex r2]|] eqn:Ee; [|discriminate].
      assert (r2 = r) as -> by congruence. pose proof (exp_nonempty _ _ _ Ee Ne) as N1. split; [apply (frac_nonempty _ _ _ Ef N1)|].
      rewrite (frac_ext _ t _ _ Ef N1), (exp_ext _ t _ _ Ee Ne). congruence. }
    destruct (expect [48] s1) as [s2|] eqn:E.
    - rewrite (expect_ext _ _ t _ E). apply T, Y.
    - destruct (take_digits s1) as [ds s2] eqn:Ed. destruct ds as [|d ds]; [discriminate|].
      destruct (T _ _ Y) as [N2 Z]. destruct s1 as [|c s1]; [discriminate|]. rewrite expect1_none by exact E.
      rewrite (digits_ext _ t _ _ Ed N2). exact Z. }
  destruct (expect [45] s) as [s1|] eqn:E.
  - rewrite (expect_ext _ _ t _ E). apply A, H.
  - destruct s as [|c s]; [discriminate|]. rewrite expect1_none by exact E. apply (A [] (c :: s)), H.
Qed.

Ltac byte c := destruct c as [|c]; [reflexivity|]; pos7 c; lia.
Lemma value_step k c r : scan_value (S k) (c :: r) =
  if c =? 123 then
    match expect [125] (skip_space r) with
    | Some r' => Some (JObj [], r')
    | None => match scan_members k (skip_space r) with Some (ms, r2) => Some (JObj ms, r2) | None => None end
    end
  else if c =? 91 then
    match expect [93] (skip_space r) with
    | Some r' => Some (JArr [], r')
    | None => match scan_elements k (skip_space r) with Some (vs, r2) => Some (JArr vs, r2) | None => None end
    end
  else if c =? 34 then match scan_string (length r) r with Some (x, r') => Some (JStr x, r') | None => None end
  else if c =? 116 then match expect [114; 117; 101] r with Some r' => Some (JBool true, r') | None => None end
  else if c =? 102 then match expect [97; 108; 115; 101] r with Some r' => Some (JBool false, r') | None => None end
  else if c =? 110 then match expect [117; 108; 108] r with Some r' => Some (JNull, r') | None => None end
  else match scan_number (c :: r) with Some (l, r') => Some (JNum l, r') | None => None end.
Proof.
  cbn [scan_value]. destruct (c =? 123); [|destruct (c =? 91); [|reflexivity]].
  - destruct (skip_space r) as [|a s]; [reflexivity|]. cbn [expect]. destruct (N.eqb_spec 125 a) as [<-|Ne]; [reflexivity|]. byte a.
  - destruct (skip_space r) as [|a s]; [reflexivity|]. cbn [expect]. destruct (N.eqb_spec 93 a) as [<-|Ne]; [reflexivity|]. byte a.
Qed.
Lemma members_step k s : scan_members (S k) s =
  match expect [34] s with
  | None => None
  | Some r =>
      match scan_string (length r) r with
      | None => None
      | Some (key, r1) =>
          match expect [58] (skip_space r1) with
          | None => None
          | Some r2 =>
              match scan_value k (skip_space r2) with
              | None => None
              | Some (v, r3) =>
                  match expect [44] (skip_space r3) with
                  | Some r4 => match scan_members k (skip_space r4) with Some (ms, r5) => Some ((key, v) :: ms, r5) | None => None end
                  | None => match expect [125] (skip_space r3) with Some r4 => Some ([(key, v)], r4) | None => None end
                  end
              end
          end
      end
  end.
Proof.
  cbn [scan_members]. destruct s as [|c r]; [reflexivity|]. cbn [expect]. destruct (N.eqb_spec 34 c) as [<-|Ne]; [|byte c].
  destruct (scan_string (length r) r) as [[key r1]|]; [|reflexivity].
  destruct (skip_space r1) as [|a r2]; [reflexivity|]. cbn [expect]. destruct (N.eqb_spec 58 a) as [<-|Na]; [|byte a].
  destruct (scan_value k (skip_space r2)) as [[v r3]|]; [|reflexivity].
  destruct (skip_space r3) as [|b r4]; [reflexivity|]. cbn [expect]. destruct (N.eqb_spec 44 b) as [<-|Nb]; [reflexivity|].
  destruct (N.eqb_spec 125 b) as [<-|Nb2]; [reflexivity|]. byte b.
Qed.
Lemma elements_step k s : scan_elements (S k) s =
  match scan_value k s with
  | None => None
  | Some (v, r3) =>
      match expect [44] (skip_space r3) with
      | Some r4 => match scan_elements k (skip_space r4) with Some (vs, r5) => Some (v :: vs, r5) | None => None end
      | None => match expect [93] (skip_space r3) with Some r4 => Some ([v], r4) | None => None end
      end
  end.
Proof.
  cbn [scan_elements]. destruct (scan_value k s) as [[v r3]|]; [|reflexivity].
  destruct (skip_space r3) as [|b r4]; [reflexivity|]. cbn [expect]. destruct (N.eqb_spec 44 b) as [<-|Nb]; [reflexivity|].
  destruct (N.eqb_spec 93 b) as [<-|Nb2]; [reflexivity|]. byte b.
Qed.
(** A mark after spaces. *)
Lemma mark_ext a p t r : expect [a] (skip_space p) = Some r -> expect [a] (skip_space (p ++ t)) = Some (r ++ t).
Proof. intros H. rewrite skip_ext by (intros E; rewrite E in H; discriminate). apply expect_ext, H. Qed.
Lemma mark_none a b p t r : expect [a] (skip_space p) = None -> expect [b] (skip_space p) = Some r -> expect [a] (skip_space (p ++ t)) = None.
Proof.
  intros H H1. destruct (skip_space p) as [|c s] eqn:E; [discriminate|]. rewrite skip_ext by congruence. rewrite E. apply expect1_none, H.
Qed.
Lemma mark_rest a p r : expect [a] (skip_space p) = Some r -> p <> [].
Proof. intros H ->. discriminate. Qed.
Lemma skip_value k p v r : scan_value k (skip_space p) = Some (v, r) -> skip_space p <> [].
Proof. intros H E. rewrite E in H. destruct k; discriminate. Qed.
Lemma skip_members k p v r : scan_members k (skip_space p) = Some (v, r) -> skip_space p <> [].
Proof. intros H E. rewrite E in H. destruct k; discriminate. Qed.
Lemma skip_elements k p v r : scan_elements k (skip_space p) = Some (v, r) -> skip_space p <> [].
Proof. intros H E. rewrite E in H. destruct k as [|[|k]]; discriminate. Qed.
Lemma scan_ext k : (forall k' p t v r, (k <= k')%nat -> scan_value k p = Some (v, r) -> r <> [] \/ hd_error p = Some 123 -> scan_value k' (p ++ t) = Some (v, r ++ t)) /\
  (forall k' p t v r, (k <= k')%nat -> scan_members k p = Some (v, r) -> scan_members k' (p ++ t) = Some (v, r ++ t)) /\
  (forall k' p t v r, (k <= k')%nat -> scan_elements k p = Some (v, r) -> scan_elements k' (p ++ t) = Some (v, r ++ t)).
Proof.
  induction k as [|k (IV & IM & IE)]; [repeat split; intros; discriminate|]. split; [|split].
  - intros k' p t v r L H Hr. destruct k' as [|k']; [lia|]. assert (L' : (k <= k')%nat) by lia. clear L.
    destruct p as [|c p]; [discriminate|]. cbn [app hd_error] in *. rewrite value_step in *.
    destruct (N.eqb_spec c 123) as [->|N0].
    { clear Hr. destruct (expect [125] (skip_space p)) as [r'|] eqn:E.
      - rewrite (mark_ext _ _ t _ E). congruence.
      - destruct (scan_members k (skip_space p)) as [[ms r2]|] eqn:Em; [|discriminate]. inversion H; subst.
        pose proof (skip_members _ _ _ _ Em) as Ne. rewrite skip_ext by exact Ne. rewrite (IM _ _ t _ _ L' Em).
        destruct (skip_space p) as [|a s]; [congruence|]. rewrite expect1_none by exact E. reflexivity. }
    assert (Nr : r <> []) by (destruct Hr as [Hr|Hr]; [exact Hr|congruence]). clear Hr N0.
    destruct (c =? 91).
    { destruct (expect [93] (skip_space p)) as [r'|] eqn:E.
      - rewrite (mark_ext _ _ t _ E). congruence.
      - destruct (scan_elements k (skip_space p)) as [[ms r2]|] eqn:Em; [|discriminate]. inversion H; subst.
        pose proof (skip_elements _ _ _ _ Em) as Ne. rewrite skip_ext by exact Ne. rewrite (IE _ _ t _ _ L' Em).
        destruct (skip_space p) as [|a s]; [congruence|]. rewrite expect1_none by exact E. reflexivity. }
    destruct (c =? 34).
    { destruct (scan_string (length p) p) as [[x r']|] eqn:E; [|discriminate]. inversion H; subst.
      rewrite (scan_string_ext (length p) (length (p ++ t)) _ t _ _ ltac:(rewrite app_length; lia) E). reflexivity. }
    destruct (c =? 116). { destruct (expect _ p) as [r'|] eqn:E; [|discriminate]. rewrite (expect_ext _ _ t _ E). congruence. }
    destruct (c =? 102). { destruct (expect _ p) as [r'|] eqn:E; [|discriminate]. rewrite (expect_ext _ _ t _ E). congruence. }
    destruct (c =? 110). { destruct (expect _ p) as [r'|] eqn:E; [|discriminate]. rewrite (expect_ext _ _ t _ E). congruence. }
    destruct (scan_number (c :: p)) as [[l r']|] eqn:E; [|discriminate]. inversion H; subst.
    pose proof (number_ext _ t _ _ E Nr) as X. cbn [app] in X. rewrite X. reflexivity.
  - intros k' p t v r L H. destruct k' as [|k']; [lia|]. assert (L' : (k <= k')%nat) by lia. clear L. rewrite members_step in *.
    destruct (expect [34] p) as [r0|] eqn:E0; [|discriminate]. rewrite (expect_ext _ _ t _ E0).
    destruct (scan_string (length r0) r0) as [[key r1]|] eqn:E1; [|discriminate].
    rewrite (scan_string_ext (length r0) (length (r0 ++ t)) _ t _ _ ltac:(rewrite app_length; lia) E1).
    destruct (expect [58] (skip_space r1)) as [r2|] eqn:E2; [|discriminate]. rewrite (mark_ext _ _ t _ E2).
    destruct (scan_value k (skip_space r2)) as [[w r3]|] eqn:E3; [|discriminate].
    rewrite skip_ext by (eapply skip_value, E3).
    destruct (expect [44] (skip_space r3)) as [r4|] eqn:E4.
    + rewrite (IV _ _ t _ _ L' E3 (or_introl (mark_rest _ _ _ E4))), (mark_ext _ _ t _ E4).
      destruct (scan_members k (skip_space r4)) as [[ms r5]|] eqn:E5; [|discriminate].
      rewrite skip_ext by (eapply skip_members, E5). rewrite (IM _ _ t _ _ L' E5). inversion H; subst. reflexivity.
    + destruct (expect [125] (skip_space r3)) as [r4|] eqn:E5; [|discriminate].
      rewrite (IV _ _ t _ _ L' E3 (or_introl (mark_rest _ _ _ E5))), (mark_none _ _ _ t _ E4 E5), (mark_ext _ _ t _ E5). inversion H; subst. reflexivity.
  - intros k' p t v r L H. destruct k' as [|k']; [lia|]. assert (L' : (k <= k')%nat) by lia. clear L. rewrite elements_step in *.
    destruct (scan_value k p) as [[w r3]|] eqn:E3; [|discriminate].
    destruct (expect [44] (skip_space r3)) as [r4|] eqn:E4.
    + rewrite (IV _ _ t _ _ L' E3 (or_introl (mark_rest _ _ _ E4))), (mark_ext _ _ t _ E4).
      destruct (scan_elements k (skip_space r4)) as [[ms r5]|] eqn:E5; [|discriminate].
      rewrite skip_ext by (eapply skip_elements, E5). rewrite (IE _ _ t _ _ L' E5). inversion H; subst. reflexivity.
    + destruct (expect [93] (skip_space r3)) as [r4|] eqn:E5; [|discriminate].
      rewrite (IV _ _ t _ _ L' E3 (or_introl (mark_rest _ _ _ E5))), (mark_none _ _ _ t _ E4 E5), (mark_ext _ _ t _ E5). inversion H; subst. reflexivity.
Qed.

(** A configuration file cut short cannot be read. *)
Theorem cut_config c pre post : cfg_values c -> marshal c = pre ++ post -> post <> [] -> read_config (Some pre) = Err EOther.
Proof.
  intros V E Ne. unfold read_config, unmarshal.
  assert (X : json_parse pre = None); [|rewrite X; reflexivity].
  unfold json_parse. destruct pre as [|a pre]; [reflexivity|].
  destruct (marshal_head c) as [t Et]. assert (a = 123) as ->. { rewrite Et in E. cbn [app] in E. congruence. }
  rewrite (skip_none 123) by reflexivity.
  destruct (scan_value (2 * length (123 :: pre) + 2) (123 :: pre)) as [[v r]|] eqn:Es; [|reflexivity].
  destruct (scan_ext (2 * length (123 :: pre) + 2)) as (IV & _).
  pose proof (IV _ _ post _ _ (Nat.le_max_l _ (length (marshal c))) Es (or_intror eq_refl)) as Y.
  destruct (marshal_reads c V) as [_ R]. pose proof (R _ [] (Nat.le_max_r (2 * length (123 :: pre) + 2) (length (marshal c))) eq_refl) as Z.
  rewrite app_nil_r in Z. rewrite <- E in Y. rewrite Y in Z. destruct r; [|discriminate]. destruct post; [congruence|discriminate].
Qed.
