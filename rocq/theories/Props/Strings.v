(** C117: what the String methods of posts, tokens and path sets show. *)
From Coq Require Import String Lia.
From Verif Require Import Model.Base Model.Post Model.Token Model.Hex Model.Output Model.Fnames Model.Strings.
From Verif Require Import Spec.Str Spec.Paths Spec.Printed.
From Verif Require Import Proof.Tactics Proof.VarintP Proof.FnamesP Proof.OutputP.
Local Open Scope N_scope.
Local Open Scope list_scope.

(** The value of a numeral. *)
Definition hex_val (c : N) : N := if c <? 58 then c - 48 else c - 87.
Lemma hex_val_nth d c : nth_error hexadecimal (N.to_nat d) = Some c -> hex_val c = d.
Proof.
  intros H. assert (L : (N.to_nat d < 16)%nat) by (change 16%nat with (List.length hexadecimal); apply nth_error_Some; congruence).
  rewrite <- (N2Nat.id d). revert H L. generalize (N.to_nat d). intros k H L.
  do 16 (destruct k as [|k]; [injection H as <-; reflexivity|]). lia.
Qed.
Lemma dec_val_nth d c : nth_error decimal (N.to_nat d) = Some c -> hex_val c = d.
Proof.
  intros H. assert (L : (N.to_nat d < 10)%nat) by (change 10%nat with (List.length decimal); apply nth_error_Some; congruence).
  rewrite <- (N2Nat.id d). revert H L. generalize (N.to_nat d). intros k H L.
  do 10 (destruct k as [|k]; [injection H as <-; reflexivity|]). lia.
Qed.
Lemma numeral_val ds s v : (forall d c, nth_error ds (N.to_nat d) = Some c -> hex_val c = d) -> numeral ds s v ->
  fold_left (fun a c => N.of_nat (List.length ds) * a + hex_val c) s 0 = v.
Proof.
  intros V. induction 1 as [c d H|s v c d H IH _ H1].
  - cbn [fold_left]. rewrite (V _ _ H). lia.
  - rewrite fold_left_app. cbn [fold_left]. rewrite IH, (V _ _ H1). reflexivity.
Qed.
Lemma dec_fun s v v' : numeral decimal s v -> numeral decimal s v' -> v = v'.
Proof. intros A B. rewrite <- (numeral_val _ _ _ dec_val_nth A). exact (numeral_val _ _ _ dec_val_nth B). Qed.
Lemma hex_fun s v v' : numeral hexadecimal s v -> numeral hexadecimal s v' -> v = v'.
Proof. intros A B. rewrite <- (numeral_val _ _ _ hex_val_nth A). exact (numeral_val _ _ _ hex_val_nth B). Qed.
Lemma cut_at (x : N) a : forall b s t, ~ In x a -> ~ In x b -> a ++ x :: s = b ++ x :: t -> a = b /\ s = t.
Proof.
  induction a as [|y a IH]; intros [|z b] s t Ia Ib E; cbn [app] in E.
  - injection E as <-. auto.
  - injection E as -> _. exfalso. apply Ib. left. reflexivity.
  - injection E as <- _. exfalso. apply Ia. left. reflexivity.
  - injection E as -> E. destruct (IH b s t) as [-> ->]; [| |exact E|auto]; intros I; [apply Ia|apply Ib]; right; exact I.
Qed.
Lemma dec_not n x : n < 2 ^ 32 -> ~ In x decimal -> ~ In x (print_dec n).
Proof. intros L H I. pose proof (numeral_chars _ _ _ (print_dec_numeral n L)) as F. rewrite Forall_forall in F. exact (H (F x I)). Qed.
Lemma hex_not n x : n < 2 ^ 32 -> ~ In x hexadecimal -> ~ In x (print_hex n).
Proof. intros L H I. pose proof (numeral_chars _ _ _ (print_hex_numeral n L)) as F. rewrite Forall_forall in F. exact (H (F x I)). Qed.
Lemma u32_lt n : u32 n < 2 ^ 32.
Proof. apply N.mod_lt. discriminate. Qed.
Ltac not_in := let J := fresh in vm_compute; intros J; repeat (destruct J as [J|J]; [discriminate J|]); exact J.

(** Posts: the number of the document, and the last 16 bits of the blot. *)
Theorem C117_post : forall p, exists d h, post_string p = bs "<" ++ d ++ bs "," ++ h ++ bs ">" /\
  numeral decimal d (post_docid p) /\ numeral hexadecimal h (post_blot p mod 65536).
Proof.
  intros p. exists (print_dec (post_docid p)), (print_hex (N.land (post_blot p) 65535)). split; [reflexivity|]. split; [apply print_dec_numeral, u32_lt|].
  change 65535 with (N.ones 16). rewrite N.land_ones. change (2 ^ 16) with 65536. apply print_hex_numeral.
  eapply N.lt_trans; [apply N.mod_lt; discriminate|reflexivity].
Qed.
(** Two posts look the same exactly when these agree... *)
Theorem C117_post_partial : forall p q, post_string p = post_string q <-> post_docid p = post_docid q /\ post_blot p mod 65536 = post_blot q mod 65536.
Proof.
  intros p q. split.
  - destruct (C117_post p) as (d & h & E & D & X), (C117_post q) as (d' & h' & E' & D' & X'). rewrite E, E'. intros S. apply app_inv_head in S.
    assert (C : forall d v, numeral decimal d v -> ~ In 44 d).
    { intros s v Nm I. pose proof (numeral_chars _ _ _ Nm) as F. rewrite Forall_forall in F. specialize (F 44 I). clear I. revert F. not_in. }
    apply (cut_at 44 d d' _ _ (C _ _ D) (C _ _ D')) in S. destruct S as [-> S]. apply app_inv_tail in S. subst h'.
    split; [exact (dec_fun _ _ _ D D')|exact (hex_fun _ _ _ X X')].
  - intros [E1 E2]. unfold post_string. rewrite E1. change 65535 with (N.ones 16). rewrite !N.land_ones. change (2 ^ 16) with 65536. rewrite E2. reflexivity.
Qed.
(** ...REFUTED: different posts look different. *)
Theorem C117_post_refuted : forall did blot blot', did < 2 ^ 32 -> blot < 2 ^ 32 -> blot' < 2 ^ 32 -> blot <> blot' -> blot mod 65536 = blot' mod 65536 ->
  post_make did blot <> post_make did blot' /\ post_string (post_make did blot) = post_string (post_make did blot').
Proof.
  intros did b b' Ld Lb Lb' Ne E. split.
  - intros X. apply Ne. rewrite <- (post_blot_make did b Ld Lb), X. exact (post_blot_make did b' Ld Lb').
  - apply C117_post_partial. rewrite (post_docid_make did b Ld Lb), (post_docid_make did b' Ld Lb'), (post_blot_make did b Ld Lb), (post_blot_make did b' Ld Lb'). auto.
Qed.

(** Tokens: all of them look different. *)
Theorem C117_token : forall t t', t_pos t < 2 ^ 32 -> t_pos t' < 2 ^ 32 -> token_string t = token_string t' -> t = t'.
Proof.
  intros [g l p] [g' l' p'] Lp Lp' E. cbn [t_pos] in Lp, Lp'. unfold token_string in E. cbn [t_tag t_lit t_pos] in E. apply app_inv_head in E.
  assert (G : g = g' /\ l ++ bs "' @" ++ print_dec p ++ bs ">" = l' ++ bs "' @" ++ print_dec p' ++ bs ">").
  { destruct g, g'; cbn [tag_string] in E; try discriminate E; (split; [reflexivity|]); apply app_inv_head in E; apply app_inv_head in E; exact E. }
  destruct G as [-> E2]. clear E. rewrite !app_assoc in E2. apply app_inv_tail in E2. rewrite <- !app_assoc in E2.
  apply (f_equal (@rev N)) in E2. rewrite !rev_app_distr in E2. change (rev (bs "' @")) with (64 :: rev (bs "' ")) in E2. rewrite <- !app_assoc in E2. cbn [app] in E2.
  apply (cut_at 64) in E2.
  - destruct E2 as [E3 E4]. apply (f_equal (@rev N)) in E3. rewrite !rev_involutive in E3. apply app_inv_head in E4. apply (f_equal (@rev N)) in E4. rewrite !rev_involutive in E4. subst l'.
    f_equal. pose proof (print_dec_numeral p Lp) as D. rewrite E3 in D. exact (dec_fun _ _ _ D (print_dec_numeral p' Lp')).
  - intros I. rewrite <- in_rev in I. revert I. apply (dec_not p 64 Lp). not_in.
  - intros I. rewrite <- in_rev in I. revert I. apply (dec_not p' 64 Lp'). not_in.
Qed.

(** Path sets: one line for each number, in order; the line of a path that was added is that path. *)
Lemma lines_ok d : forall ids ls, Forall2 (fun i l => fn_abs d i = Ok l) ids ls -> fn_lines d ids = Ok (concat (map (fun l => l ++ [10]) ls)).
Proof.
  induction 1 as [|i l ids ls E F IH]; [reflexivity|]. cbn [fn_lines]. rewrite E. cbn [bind]. rewrite IH. cbn [bind map concat]. rewrite <- app_assoc. reflexivity.
Qed.
Lemma F2len {A B} {R : A -> B -> Prop} {a b} : Forall2 R a b -> List.length a = List.length b.
Proof. induction 1; cbn [List.length]; congruence. Qed.
Theorem C117_paths : forall ops, ops_ok ops -> room ops < 4294967295 ->
  exists d ids ls, fn_run new_fnames ops = Ok (d, ids) /\ fn_string d = Ok (concat (map (fun l => l ++ [10]) ls)) /\ List.length ls = List.length d /\
    Forall2 (fun id p => nth_error ls (N.to_nat id) = Some (show_abs (spec_abs (fst p) (snd p)))) ids (added ops).
Proof.
  intros ops R Hs. assert (nlen new_fnames = 1) as N1 by reflexivity.
  destruct (fn_run_spec ops new_fnames R new_wf) as (d & ids & E & W & X & L & F); [lia|].
  assert (T : exists ls, Forall2 (fun i l => fn_abs d i = Ok l) (map N.of_nat (seq 0 (List.length d))) ls).
  { assert (A : forall k, (k <= List.length d)%nat -> exists ls, Forall2 (fun i l => fn_abs d i = Ok l) (map N.of_nat (seq 0 k)) ls).
    { induction k as [|k IH]; intros Hk; [exists []; constructor|]. destruct IH as [ls Hl]; [lia|].
      destruct (is_path_total d W (N.of_nat k)) as (cs & P & _); [unfold nlen; lia|]. eexists (ls ++ [_]).
      rewrite seq_S, map_app. apply Forall2_app; [exact Hl|]. constructor; [exact (fn_abs_path d _ cs W P)|constructor]. }
    exact (A _ (Nat.le_refl _)). }
  destruct T as [ls Hl]. exists d, ids, ls. split; [exact E|]. split; [exact (lines_ok d _ ls Hl)|].
  split; [rewrite <- (F2len Hl), map_length, seq_length; reflexivity|].
  clear -F Hl W. induction F as [|id p ids ps P F IH]; constructor; [|exact IH].
  pose proof (is_path_lt d id _ W P) as Li. pose proof (fn_abs_path d id _ W P) as A. rewrite parts_show in A.
  assert (Hi : nth_error (map N.of_nat (seq 0 (List.length d))) (N.to_nat id) = Some id).
  { unfold nlen in Li. rewrite (nth_error_nth' _ 0) by (rewrite map_length, seq_length; lia). f_equal. change 0 with (N.of_nat 0). rewrite map_nth, seq_nth by lia. lia. }
  clear -Hl Hi A. revert Hl Hi. generalize (map N.of_nat (seq 0 (List.length d))) as l, (N.to_nat id) as k. intros l k Hl. revert k.
  induction Hl as [|i x l ls Ex Hl IH]; intros [|k] Hi; try discriminate Hi; cbn [nth_error] in *; [injection Hi as ->; congruence|exact (IH k Hi)].
Qed.
Print Assumptions C117_post.
Print Assumptions C117_post_partial.
Print Assumptions C117_post_refuted.
Print Assumptions C117_token.
Print Assumptions C117_paths.
Example C117_example : post_string (post_make 7 65537) = bs "<7,1>" /\ post_string (post_make 7 1) = bs "<7,1>" /\
  token_string (MkTok Word (bs "it's") 12) = bs "<token w: 'it's' @12>" /\
  ops_ok [FnAdd (bs "/h") (bs "a/b"); FnAdd (bs "/h") (bs "c")] /\ room [FnAdd (bs "/h") (bs "a/b"); FnAdd (bs "/h") (bs "c")] < 4294967295 /\
  exists d ids, fn_run new_fnames [FnAdd (bs "/h") (bs "a/b"); FnAdd (bs "/h") (bs "c")] = Ok (d, ids) /\
    fn_string d = Ok (bs "/" ++ [10] ++ bs "/h" ++ [10] ++ bs "/h/a" ++ [10] ++ bs "/h/a/b" ++ [10] ++ bs "/h/c" ++ [10]).
Proof.
  split; [vm_compute; reflexivity|]. split; [vm_compute; reflexivity|]. split; [vm_compute; reflexivity|].
  split; [intros cwd path [E|[E|[]]]; injection E as <- <-; eexists; reflexivity|]. split; [vm_compute; reflexivity|]. eexists. eexists. split; vm_compute; reflexivity.
Qed.
