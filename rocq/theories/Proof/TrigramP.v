From Verif Require Import Model.Base Model.Trigram Spec.Spelling Proof.Tactics.
Local Open Scope N_scope.

Lemma letter_lt r : letter r < 37.
Proof. unfold letter, c_other. destruct ((48 <=? r) && (r <=? 57)) eqn:E1; [lia|]. destruct ((97 <=? r) && (r <=? 122)) eqn:E2; [lia|]. destruct ((65 <=? r) && (r <=? 90)) eqn:E3; lia. Qed.
Lemma unletter_letter r : unletter (letter r) = folded r.
Proof.
  unfold letter, folded, unletter, c_other, u8.
  destruct ((48 <=? r) && (r <=? 57)) eqn:E1; cbn [orb].
  { assert ((r - 48 <=? 9) = true) as -> by lia. lia. }
  destruct ((97 <=? r) && (r <=? 122)) eqn:E2.
  { assert ((r - 97 + 10 <=? 9) = false) as -> by lia. assert ((r - 97 + 10 <=? 35) = true) as -> by lia. lia. }
  destruct ((65 <=? r) && (r <=? 90)) eqn:E3; [|reflexivity].
  assert ((r - 65 + 10 <=? 9) = false) as -> by lia. assert ((r - 65 + 10 <=? 35) = true) as -> by lia. lia.
Qed.
Lemma shift_val t c : c < 37 -> shift t c = t mod 1369 * 37 + c.
Proof. intros H. unfold shift, num_letters, u16. change (37 mod 65536) with 37. change (37 * 37 mod 65536) with 1369.
  assert (t mod 1369 < 1369) by lia. generalize dependent (t mod 1369). intros m Hm.
  rewrite (N.mod_small (m * 37)), (N.mod_small c), N.mod_small; lia. Qed.
Lemma shift_lt t c : c < 37 -> shift t c < num_trigrams.
Proof. intros H. rewrite shift_val by exact H. change num_trigrams with 50653. assert (t mod 1369 < 1369) by lia. lia. Qed.

(** A trigram is three letters. *)
Definition code (a b c : N) : tri := a * 1369 + b * 37 + c.
Lemma shift_code a b c d : a < 37 -> b < 37 -> c < 37 -> d < 37 -> shift (code a b c) d = code b c d.
Proof. intros. rewrite shift_val by assumption. unfold code. replace ((a * 1369 + b * 37 + c) mod 1369) with (b * 37 + c); lia. Qed.
Lemma string_code a b c : a < 37 -> b < 37 -> c < 37 -> tri_string (code a b c) = [unletter a; unletter b; unletter c].
Proof.
  intros. unfold tri_string, num_letters, u16, u8, code. change (37 mod 65536) with 37.
  replace ((a * 1369 + b * 37 + c) mod 37) with c by lia.
  replace ((a * 1369 + b * 37 + c) / 37) with (a * 37 + b) by lia.
  replace ((a * 37 + b) mod 37) with b by lia. replace ((a * 37 + b) / 37) with a by lia.
  rewrite !N.mod_small; try lia. reflexivity.
Qed.

(** * In range *)
Lemma shifts_range lit : forall t, Forall (fun x => x < num_trigrams) (snd (shifts t lit)).
Proof.
  induction lit as [|r l IH]; intros t; cbn [shifts]; [constructor|]. specialize (IH (shift t (letter r))).
  destruct (shifts (shift t (letter r)) l) as [t' l']. cbn [snd] in *. constructor; [apply shift_lt, letter_lt|exact IH].
Qed.
Lemma visit_token_range t tok : Forall (fun x => x < num_trigrams) (snd (visit_token t tok)).
Proof.
  unfold visit_token. destruct (tt_tag tok); cbn [snd]; [apply shifts_range| |constructor].
  constructor; [apply shift_lt; reflexivity|constructor].
Qed.
Lemma visit_range toks : forall t, Forall (fun x => x < num_trigrams) (visit_from t toks).
Proof.
  induction toks as [|tok r IH]; intros t; cbn [visit_from]; [constructor|].
  pose proof (visit_token_range t tok) as R. destruct (visit_token t tok) as [t' l]. apply Forall_app. auto.
Qed.
Lemma from_token_range dst t tok t' dst' : from_token dst t tok = Ok (t', dst') ->
  exists l, dst' = dst ++ l /\ Forall (fun x => x < num_trigrams) l /\ visit_token t tok = (t', l).
Proof.
  unfold from_token. pose proof (visit_token_range t tok) as R. unfold visit_token in *. destruct (tt_tag tok); intros H.
  - destruct (shifts t (tt_lit tok)) as [t1 l]. inv H. eauto.
  - inv H. eauto.
  - discriminate H.
Qed.

(** * Spelling *)
Definition lasts (p text : list N) : list (list N) := map (fun n => last3 (p ++ firstn n text)) (seq 1 (length text)).
Lemma last3_app p x y z : last3 (p ++ [x; y; z]) = [x; y; z].
Proof. unfold last3. rewrite app_length. cbn [length]. replace (length p + 3 - 3)%nat with (length p) by lia. rewrite skipn_app, skipn_all, Nat.sub_diag. reflexivity. Qed.
Lemma lasts_cons p c text : lasts p (c :: text) = last3 (p ++ [c]) :: lasts (p ++ [c]) text.
Proof.
  unfold lasts. cbn [length seq map firstn]. f_equal. rewrite <- seq_shift, map_map. apply map_ext. intros n.
  cbn [firstn]. rewrite <- app_assoc. reflexivity.
Qed.
Lemma lasts_app text1 : forall p text2, lasts p (text1 ++ text2) = lasts p text1 ++ lasts (p ++ text1) text2.
Proof.
  induction text1 as [|c t IH]; intros p text2; cbn [app]; [rewrite app_nil_r; reflexivity|].
  rewrite !lasts_cons, IH, <- app_assoc. reflexivity.
Qed.

(** [t] is the code of the last three characters of [p]. *)
Definition codes (t : tri) (p : list N) : Prop :=
  exists a b c q, a < 37 /\ b < 37 /\ c < 37 /\ t = code a b c /\ p = q ++ [unletter a; unletter b; unletter c].
Lemma codes_string t p : codes t p -> tri_string t = last3 p.
Proof. intros (a & b & c & q & Ha & Hb & Hc & -> & ->). rewrite string_code, last3_app by assumption. reflexivity. Qed.
Lemma codes_shift t p d : codes t p -> d < 37 -> codes (shift t d) (p ++ [unletter d]).
Proof.
  intros (a & b & c & q & Ha & Hb & Hc & -> & ->) Hd. exists b, c, d, (q ++ [unletter a]).
  split; [exact Hb|]. split; [exact Hc|]. split; [exact Hd|]. split; [apply shift_code; assumption|].
  rewrite <- !app_assoc. reflexivity.
Qed.
Lemma shifts_spell lit : forall t p, codes t p ->
  map tri_string (snd (shifts t lit)) = lasts p (map folded lit) /\ codes (fst (shifts t lit)) (p ++ map folded lit).
Proof.
  induction lit as [|r l IH]; intros t p C; cbn [shifts map]; [rewrite app_nil_r; auto|].
  pose proof (codes_shift t p _ C (letter_lt r)) as C1. rewrite unletter_letter in C1.
  specialize (IH _ _ C1). destruct (shifts (shift t (letter r)) l) as [t' l']. cbn [fst snd map] in *.
  rewrite lasts_cons, <- app_assoc in *. destruct IH as [-> IH]. rewrite (codes_string _ _ C1). auto.
Qed.
Lemma visit_token_spell t p tok : codes t p -> tt_tag tok <> TEod ->
  map tri_string (snd (visit_token t tok)) = lasts p (spelled tok) /\ codes (fst (visit_token t tok)) (p ++ spelled tok).
Proof.
  intros C H. unfold visit_token, spelled. destruct (tt_tag tok); [apply shifts_spell, C| |congruence].
  assert (codes (shift t c_other) (p ++ [95])) as C1 by exact (codes_shift t p c_other C eq_refl).
  cbn [fst snd map]. rewrite lasts_cons, (codes_string _ _ C1). auto.
Qed.
Lemma visit_spell toks : forall t p, codes t p -> Forall (fun tok => tt_tag tok <> TEod) toks ->
  map tri_string (visit_from t toks) = lasts p (spelling toks).
Proof.
  induction toks as [|tok r IH]; intros t p C H; [reflexivity|]. inv H. unfold spelling. cbn [visit_from map concat].
  destruct (visit_token_spell t p tok C H2) as [E C1]. destruct (visit_token t tok) as [t' l]. cbn [fst snd] in *.
  rewrite map_app, E, lasts_app. f_equal. apply IH; assumption.
Qed.
Lemma zero_codes : codes tri_zero [95; 95; 95].
Proof. exists 36, 36, 36, []. vm_compute. repeat split. Qed.
Lemma visit_app toks1 : forall t toks2, exists t', visit_from t (toks1 ++ toks2) = visit_from t toks1 ++ visit_from t' toks2.
Proof.
  induction toks1 as [|tok r IH]; intros t toks2; cbn [app visit_from]; [exists t; reflexivity|].
  destruct (visit_token t tok) as [t1 l]. destruct (IH t1 toks2) as [t' ->]. exists t'. apply app_assoc.
Qed.
Lemma from_visit toks : forall dst t, Forall (fun tok => tt_tag tok <> TEod) toks ->
  from_loop dst t toks = Ok (dst ++ visit_from t toks).
Proof.
  induction toks as [|tok r IH]; intros dst t H; cbn [from_loop visit_from]; [rewrite app_nil_r; reflexivity|]. inv H.
  unfold from_token, visit_token. destruct (tt_tag tok); [| |congruence].
  - destruct (shifts t (tt_lit tok)) as [t1 l]. cbn [bind]. rewrite IH by assumption. rewrite app_assoc. reflexivity.
  - cbn [bind]. rewrite IH by assumption. rewrite <- app_assoc. reflexivity.
Qed.
