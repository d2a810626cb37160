(** The texts of documents that queries return. *)
From Verif Require Import Model.Base Model.Utf8 Model.Token Model.Blotter Model.Post Model.Address Model.Poster Model.Shard Model.Dmd Model.Fnames Model.Config Model.Index Model.Query Model.Cmd Model.Loading.
From Verif Require Import Spec.Querying Spec.Loading.
From Verif Require Import Proof.Tactics Proof.QueryP.
Local Open Scope N_scope.

Lemma map_upd {A B} (f : A -> B) n x l : map f (upd n x l) = upd n (f x) (map f l).
Proof. revert n. induction l as [|y l IH]; intros [|n]; cbn [upd map]; try reflexivity. now rewrite IH. Qed.
Lemma upd_same {A} n (x : A) l : nth_error l n = Some x -> upd n x l = l.
Proof. revert n. induction l as [|y l IH]; intros [|n]; cbn [upd nth_error]; intros E; try reflexivity; [congruence|]. now rewrite IH. Qed.
Lemma no_text_upd n d l : no_text l -> d_dat d = [] -> no_text (upd n d l).
Proof.
  intros H E. revert n. induction H as [|y l Hy Hl IH]; intros [|n]; cbn [upd]; try (constructor; auto; fail). constructor; [exact Hy|apply IH].
Qed.
Lemma no_text_zero k : no_text (repeat zero_doc k).
Proof. induction k; constructor; auto. Qed.
Lemma no_text_firstn k l : no_text l -> no_text (firstn k l).
Proof. intros H. revert k. induction H; intros [|k]; cbn [firstn]; constructor; auto. apply IHForall. Qed.

(** Nil, or an array all whose documents are without text. *)
Definition bare (ds : docs) : Prop := match ds with None => True | Some (_, back) => no_text back end.
Definition dats (ds : docs) (l : list bytes) : Prop := exists len back, ds = Some (len, back) /\ map d_dat back = l.

Section Q.
  Variables (grow : nat -> nat) (ix : index).
  Lemma put_bare ds p s e ds' : put_doc grow false ds p s e = Ok ds' -> bare ds -> bare ds'.
  Proof.
    destruct ds as [[n back]|]; cbn [put_doc]; [destruct (n <? length back)%nat|]; intros E; injection E as <-; cbn [bare]; intros H.
    - apply no_text_upd; auto.
    - apply Forall_app. split; [exact H|]. constructor; [reflexivity|apply no_text_zero].
    - constructor; [reflexivity|apply no_text_zero].
  Qed.
  Lemma put_dats ds p s e ds' l : put_doc grow true ds p s e = Ok ds' -> dats ds l -> dats ds' l.
  Proof.
    intros E (n & back & -> & <-). cbn [put_doc] in E. destruct (nth_error back n) as [old|] eqn:X; [|discriminate]. injection E as <-.
    exists (S n), (upd n (MkDoc p s e (d_dat old)) back). split; [reflexivity|]. rewrite map_upd. cbn [d_dat]. apply upd_same. rewrite nth_error_map, X. reflexivity.
  Qed.
  (** Reading documents into a slice, with limit and without. *)
  Definition inv (lim : bool) (l : list bytes) (ds : docs) : Prop := if lim then dats ds l else bare ds.
  Lemma put_inv lim l ds p s e ds' : put_doc grow lim ds p s e = Ok ds' -> inv lim l ds -> inv lim l ds'.
  Proof. destruct lim; cbn [inv]; intros E H; [eapply put_dats|eapply put_bare]; eauto. Qed.
  Lemma get_inv lim l file : forall fuel ps ds ds', get_loop grow ix fuel lim file ps ds = Ok ds' -> inv lim l ds -> inv lim l ds'.
  Proof.
    induction fuel as [|k IH]; intros ps ds ds' E H; cbn [get_loop] in E; [discriminate|].
    destruct (lim && (docs_len ds =? docs_cap ds)%nat); [injection E as <-; exact H|].
    destruct (posts_next ps file) as [[did ps']|[]| |]; try discriminate; [|injection E as <-; exact H].
    destruct (docid2doc ix did) as [[[p s] e]|?| |]; cbn [bind] in E; try discriminate.
    destruct (put_doc grow lim ds p s e) as [ds1|?| |] eqn:Ep; cbn [bind] in E; try discriminate. eapply IH; [exact E|]. eapply put_inv; eauto.
  Qed.
  Lemma fill_inv lim l file : forall fuel ps ds ds' ps' eof, fill_loop grow ix fuel lim file ps ds = Ok (ds', ps', eof) -> inv lim l ds -> inv lim l ds'.
  Proof.
    induction fuel as [|k IH]; intros ps ds ds' ps' eof E H; cbn [fill_loop] in E; [discriminate|].
    destruct (lim && negb (docs_len ds <? docs_cap ds)%nat); [injection E as <- <- <-; exact H|].
    destruct (posts_next ps file) as [[did ps1]|[]| |]; try discriminate; [|injection E as <- <- <-; exact H].
    destruct (docid2doc ix did) as [[[p s] e]|?| |]; cbn [bind] in E; try discriminate.
    destruct (put_doc grow lim ds p s e) as [ds1|?| |] eqn:Ep; cbn [bind] in E; try discriminate. eapply IH; [exact E|]. eapply put_inv; eauto.
  Qed.
  (** An array that an entry starts with. *)
  Definition seed (ds : docs) : list bytes := match ds with None => [] | Some (_, back) => map d_dat back end.
  Definition live (ds0 ds : docs) : Prop := inv (negb (is_nil ds0)) (seed ds0) ds /\ (is_nil ds0 = false -> is_nil ds = false).
  Lemma live_start ds : live ds ds.
  Proof. split; [|auto]. destruct ds as [[n back]|]; cbn [is_nil negb inv seed]; [exists n, back; auto|exact I]. Qed.
  Lemma inv_live ds0 ds : inv (negb (is_nil ds0)) (seed ds0) ds -> live ds0 ds.
  Proof. intros H. split; [exact H|]. intros E. rewrite E in H. destruct H as (n & b & -> & _). reflexivity. Qed.
  Lemma live_kept ds0 ds : live ds0 ds -> texts_kept ds0 ds.
  Proof.
    intros [H _]. destruct ds0 as [[n back]|]; cbn [is_nil negb inv seed texts_kept] in *; [exact H|].
    destruct ds as [[k b]|]; cbn [bare docs_list] in *; [apply no_text_firstn, H|constructor].
  Qed.
  Theorem get_kept fuel blot ds ds' : query_get grow ix fuel blot ds = Ok ds' -> texts_kept ds ds'.
  Proof.
    unfold query_get. intros E. destruct (get_address _ _) as [[sh sb]|?| |]; cbn [bind] in E; try discriminate.
    destruct (nth_error (ix_shards ix) (N.to_nat sh)); [|discriminate]. apply live_kept, inv_live. eapply get_inv; [exact E|]. apply live_start.
  Qed.

  (** In Next an entry is tried again: without limit it is nil then. *)
  Definition trying (ds0 ds : docs) : Prop := live ds0 ds /\ (is_nil ds0 = true -> ds = None).
  Lemma fill_blot_live fuel q entry rs pos entry' q' ds0 : fill_blot grow ix fuel q entry rs pos = Ok (entry', q') ->
    trying ds0 (be_docs entry) -> live ds0 (be_docs entry') /\ is_nil (be_docs entry) = is_nil ds0.
  Proof.
    unfold fill_blot. intros E [[L Nn] F]. destruct (nth_error (ix_shards ix) pos) as [s|]; [|discriminate].
    assert (En : is_nil (be_docs entry) = is_nil ds0) by (destruct (is_nil ds0); [rewrite F; reflexivity|apply Nn; reflexivity]).
    rewrite En in E.
    destruct (fill_loop grow ix fuel _ _ _ _) as [[[ds ps] eof]|?| |] eqn:Ef; cbn [bind] in E; try discriminate.
    split; [|exact En].
    assert (X : be_docs entry' = ds). { destruct eof; [destruct (advance _ _ _ _) as [q2|?| |]; cbn [bind] in E; try discriminate|cbn [bind] in E]; injection E as <- _; reflexivity. }
    rewrite X. apply inv_live. eapply fill_inv; [exact Ef|exact L].
  Qed.
  (** Entries already filled, the one being tried, and those still to come. *)
  Definition progress (dst0 : list blot_entry) (r : qrun) : Prop :=
    length (r_dst r) = length dst0 /\ forall i e0 e, nth_error dst0 i = Some e0 -> nth_error (r_dst r) i = Some e ->
      live (be_docs e0) (be_docs e) /\ ((r_n r <= i)%nat -> trying (be_docs e0) (be_docs e)).
  Lemma progress_upd dst0 q q' dst n n' e' : progress dst0 (MkRun q dst n) -> (n <= n')%nat ->
    (forall e0, nth_error dst0 n = Some e0 -> live (be_docs e0) (be_docs e') /\ ((n' <= n)%nat -> trying (be_docs e0) (be_docs e'))) ->
    progress dst0 (MkRun q' (upd n e' dst) n').
  Proof.
    intros [L P] Hn H. cbn [r_dst r_n] in *. split; cbn [r_dst r_n]; [rewrite upd_length; exact L|]. intros i e0 e E0 E.
    destruct (Nat.eq_dec i n) as [->|Ne].
    - assert (e = e') as ->. { rewrite nth_error_upd_eq in E; [congruence|]. rewrite L. apply nth_error_Some. congruence. }
      exact (H e0 E0).
    - rewrite nth_error_upd_ne in E by congruence. destruct (P i e0 e E0 E) as [A B]. split; [exact A|]. intros Hi. apply B. lia.
  Qed.
  Lemma iter_progress dst0 fuel r r' v : next_iter grow ix fuel r = Ok (r', v) -> progress dst0 r -> progress dst0 r'.
  Proof.
    intros E P. unfold next_iter in E. destruct r as [q dst n]. cbn [r_q r_dst r_n] in E.
    destruct (nth_error dst n) as [entry|] eqn:En; [|injection E as <- _; exact P].
    destruct (nth_error (q_states q) (N.to_nat (q_i q))) as [[rs|]|]; [| |discriminate].
    2: { destruct (_ =? _); injection E as <- _; destruct P as [L P]; split; exact L || exact P. }
    destruct (fill_blot grow ix fuel q entry rs (N.to_nat (q_i q))) as [[e1 q1]|?| |] eqn:Ef; cbn [bind] in E; try discriminate.
    assert (X : forall e0, nth_error dst0 n = Some e0 -> live (be_docs e0) (be_docs e1) /\ is_nil (be_docs entry) = is_nil (be_docs e0)).
    { intros e0 E0. eapply fill_blot_live; [exact Ef|]. destruct P as [_ P]. apply (P n e0 entry E0 En). apply Nat.le_refl. }
    destruct (docs_len (be_docs e1) <=? 1)%nat.
    - destruct (advance ix q1 rs _) as [q2|?| |]; cbn [bind] in E; try discriminate. injection E as <- _.
      apply (progress_upd _ _ _ _ _ _ _ P (Nat.le_refl n)). intros e0 E0. destruct (X e0 E0) as [[Lv Nn] Eq]. rewrite Eq. cbn [be_docs].
      destruct (be_docs e0) as [[n0 b0]|]; cbn [is_nil negb inv seed] in *.
      + destruct Lv as (k & b & -> & Eb). assert (Y : live (Some (n0, b0)) (Some (0%nat, b))) by (apply inv_live; exists 0%nat, b; auto). split; [exact Y|]. intros _. split; [exact Y|discriminate].
      + assert (Y : live None None) by (split; [exact I|discriminate]). split; [exact Y|]. intros _. split; [exact Y|reflexivity].
    - injection E as <- _. apply (progress_upd _ _ _ _ _ _ _ P (Nat.le_succ_diag_r n)). intros e0 E0. destruct (X e0 E0) as [Lv _]. split; [exact Lv|]. intros Hx. exfalso. lia.
  Qed.
  Theorem next_kept fuel k q dst r eof : query_next grow ix fuel k q dst = Ok (r, eof) -> entries_kept dst (r_dst r).
  Proof.
    intros E. assert (P : progress dst (MkRun q dst 0)).
    { split; [reflexivity|]. cbn [r_dst]. intros i e0 e E0 E1. assert (e = e0) as -> by congruence. assert (Y := live_start (be_docs e0)). split; [exact Y|]. intros _. split; [exact Y|]. destruct (be_docs e0); [discriminate|reflexivity]. }
    assert (G : forall k r0 r eof, next_loop grow ix fuel k r0 = Ok (r, eof) -> progress dst r0 -> progress dst r).
    { clear. induction k as [|k IH]; intros r0 r eof E P; cbn [next_loop] in E; [discriminate|].
      destruct (next_iter grow ix fuel r0) as [[r1 v]|?| |] eqn:Ei; cbn [bind] in E; try discriminate. pose proof (iter_progress dst fuel r0 r1 v Ei P) as P1.
      destruct v; [eapply IH; eauto|injection E as <- _; exact P1|injection E as <- _; exact P1]. }
    destruct (G k _ r eof E P) as [L H]. clear -L H. revert L H. generalize (r_dst r) as b. intros b. generalize (r_n r) as n. intros n. revert n b. unfold entries_kept.
    induction dst as [|e0 dst IH]; intros n [|e b] L H; cbn [length] in L; try discriminate; constructor.
    - exact (live_kept _ _ (proj1 (H 0%nat e0 e eq_refl eq_refl))).
    - apply (IH (pred n)); [congruence|]. intros i x y Ex Ey. destruct (H (S i) x y Ex Ey) as [A B]. split; [exact A|]. intros Hi. apply B. lia.
  Qed.

  (** A document without text is searched in its file. *)
  Lemma search_bare u fs c blot d : d_dat d = [] ->
    search u fs c blot d = (do! d' <- doc_load fs (d_path d) (d_start d) (d_end d); do! rng <- find_blot u c blot d'; Ok (rng, d')).
  Proof. intros E. unfold search, ensure_loaded. rewrite E. reflexivity. Qed.
  (** A document with text is searched in it. *)
  Lemma search_kept u fs c blot d : d_dat d <> [] -> search u fs c blot d = (do! rng <- find_blot u c blot d; Ok (rng, d)).
  Proof. intros E. unfold search, ensure_loaded. destruct (d_dat d); [congruence|reflexivity]. Qed.
End Q.
