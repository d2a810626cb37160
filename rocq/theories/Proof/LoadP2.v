(** FindBlot on the documents that queries return. *)
From Coq Require Import String.
From Verif Require Import Model.Base Model.Utf8 Model.Token Model.Blotter Model.Post Model.Address Model.Poster Model.Shatter Model.Shard Model.Dmd Model.Fnames Model.Conc Model.Config Model.Run Model.Index Model.Query Model.Session Model.Cmd Model.Loading.
From Verif Require Import Spec.Text Spec.Fingerprint Spec.Configs Spec.Paths Spec.Reading Spec.Querying Spec.Limited Spec.History Spec.Stretch Spec.Loading Spec.Str.
From Verif Require Import Proof.Tactics Proof.TokenP Proof.BlotterP Proof.BlotsP Proof.IndexP Proof.IndexP2 Proof.FindP Proof.QueryP Proof.QueryP2 Proof.QueryW Proof.SessionP Proof.SessionP2 Proof.LikeP2 Proof.LikeP3 Proof.LimitP2 Proof.LikeW Proof.LoadP.
Local Open Scope N_scope.
Local Open Scope list_scope.

Section F.
  Context (u : unicode) (c : config) (k m n : nat).
  Hypothesis F : cfg_full c k m n.
  Notation H := (word_hash u).
  Variables (docs : list (bytes * doc)) (wss : list (list bytes)) (fs : files).
  Hypothesis Ww : words_of (word_char u) docs wss.
  Hypothesis P : in_place fs docs.
  Lemma found q id d : In id (carriers H k m n 0 wss q) -> doc_key d = place_of docs id -> d_dat d = [] ->
    exists i cwd x s e d', id = N.of_nat (S i) /\ nth_error docs i = Some (cwd, x) /\ search u fs c q d = Ok (s, e, d') /\ d_dat d' = d_dat x /\
      d_start x <= s /\ s <= e /\ e <= d_start x + nlen (d_dat x).
  Proof.
    intros Hin Ek Et. apply carriers_in in Hin. destruct Hin as (i & ws & -> & Ei & Hb).
    destruct (nth_Forall2' _ _ _ Ww _ _ Ei) as ([cwd x] & Ex & Wx). cbn [snd] in Wx. destruct (P i cwd x Ex) as [Lx If].
    replace (0 + 1 + N.of_nat i) with (N.of_nat (S i)) in * by lia.
    assert (Ep : exists p, place_of docs (N.of_nat (S i)) = (p, d_start x, d_end x)).
    { unfold place_of. replace (N.to_nat (N.of_nat (S i) - 1)) with i by lia. rewrite Ex. eauto. }
    destruct Ep as [p Ep]. rewrite Ep in *. destruct d as [dp ds de dd]. unfold doc_key in Ek. cbn [d_path d_start d_end d_dat] in *. injection Ek as -> -> ->. subst dd.
    destruct (in_file_load fs p (d_start x) (d_end x) (d_dat x) If) as (d' & El & Ed & Es).
    destruct F as [Ok_ Hn _]. destruct (doc_spans_total u (d_dat x)) as [sp Sp].
    destruct (find_blot_first u c k m n Ok_ Hn d' q ws sp) as [(j & a & b & _ & _ & _ & _ & (L1 & L2) & Ef)|[No _]].
    - rewrite Ed. exact Wx.
    - rewrite Ed. exact Sp.
    - rewrite Ed, Es. exact Lx.
    - exists i, cwd, x, (d_start d' + N.of_nat (fst a)), (d_start d' + N.of_nat (snd b)), d'. split; [reflexivity|]. split; [exact Ex|].
      split; [unfold search, ensure_loaded; cbn [d_dat d_path d_start d_end]; rewrite El; cbn [bind]; rewrite Ef; reflexivity|].
      split; [exact Ed|]. rewrite Es, <- Ed. unfold nlen. clear -L1 L2. lia.
    - exfalso. unfold has_blot in Hb. apply existsb_exists in Hb. destruct Hb as (b & Hb & Eq). apply N.eqb_eq in Eq.
      destruct (proj1 (spec_blots_carries H k m n ws q)) as [j Cj]; [eauto|]. exact (No j Cj).
  Qed.
End F.

Section R.
  Variables (grow : nat -> nat) (ix : index) (fuel : nat).
  Lemma kept_no_text e e' : fresh e -> texts_kept (be_docs e) (be_docs e') -> no_text (docs_list (be_docs e')).
  Proof.
    unfold fresh, texts_kept. destruct (be_docs e) as [[len back]|]; [|auto]. intros [_ Nt] (l & b & -> & Eb). cbn [docs_list]. apply no_text_firstn.
    clear -Nt Eb. revert b Eb. induction Nt as [|y back Hy _ IH]; intros [|z b] Eb; cbn [map] in Eb; try discriminate; constructor; [congruence|]. apply IH. congruence.
  Qed.
  Lemma queried_no_text q out : queried grow ix fuel (Forall fresh) q out -> Forall (fun e => no_text (docs_list (be_docs e))) out.
  Proof.
    induction 1 as [|q out dst k r eof Q IH D E]; [constructor|]. apply Forall_app. split; [exact IH|]. pose proof (next_kept grow ix fuel k q dst r eof E) as K.
    apply Forall_forall. intros e He. assert (He' : In e (r_dst r)) by (rewrite <- (firstn_skipn (r_n r) (r_dst r)); apply in_or_app; left; exact He). clear He. clear -D K He'.
    unfold entries_kept in K. revert D He'. induction K as [|a b l l' Hab K IH]; intros D He; [destruct He|]. inversion D as [|? ? Fa Dl]; subst. destruct He as [<-|He]; [eapply kept_no_text; eauto|auto].
  Qed.
  Lemma queried_weaken (ok ok' : list blot_entry -> Prop) : (forall d, ok d -> ok' d) -> forall q out, queried grow ix fuel ok q out -> queried grow ix fuel ok' q out.
  Proof. intros X q out Q. induction Q; [constructor|econstructor; eauto]. Qed.
  Lemma fresh_emptied dst : Forall fresh dst -> Forall emptied dst.
  Proof. apply Forall_impl. intros e. unfold fresh, emptied. destruct (be_docs e) as [[len back]|]; cbn; [intros [-> _]; reflexivity|auto]. Qed.
End R.

(** Getting one blot, searching its documents, and getting another one into the same slice. *)
Theorem stale_text : exists c docs fs,
  default_config (bs "/") (bs "x") = Ok c /\ cfg_full c 1 10 2 /\ docs_fit docs /\ in_place fs docs /\
  forall u sorted grow fuel, sorts sorted -> (5 < fuel)%nat ->
    (exists dk, history u c [docs] dk) /\
    forall dk ix, history u c [docs] dk -> open_index sorted dk = Ok ix ->
    exists q1 q2 back1 back2 back3 found,
      query_get grow ix fuel q1 (Some (0%nat, repeat zero_doc 3)) = Ok (Some (3%nat, back1)) /\
      Forall2 (fun d r => search u fs c q1 d = Ok r) back1 found /\ back2 = map snd found /\
      query_get grow ix fuel q2 (Some (0%nat, back2)) = Ok (Some (2%nat, back3)) /\
      forall d, In d (firstn 2 back3) ->
        (exists s e d', search u fs c q2 (MkDoc (d_path d) (d_start d) (d_end d) []) = Ok (s, e, d')) /\
        search u fs c q2 d = Err EOther.
Proof.
  exists wit_config, wit_docs, like_files. split; [exact wit_default|]. split; [exact wit_full|]. split; [exact wit_fit|]. split.
  { intros i cwd x E. destruct (wit_place i cwd x E) as (A & B & C). rewrite A. split; [exact B|exact C]. }
  intros u sorted grow fuel Hs Hf. split.
  { destruct wit_full as [A B C]. apply (history_exists u wit_config 1 10 2 A B C); [discriminate|reflexivity|exact wit_fit]. }
  intros dk ix Hi Eo. destruct (opened u wit_config 1 10 2 sorted wit_full Hs [wit_docs] dk wit_wss Hi wit_fit (wit_words u)) as (ix' & E & I).
  assert (ix' = ix) as -> by congruence. clear E. change (all_docs [wit_docs]) with wit_docs in I.
  assert (G : forall blot back, let ids := if wit_blot1 =? blot then [1; 2; 3] else if wit_blot2 =? blot then [4; 5] else [] in blot < 131072 ->
    query_get grow ix fuel blot (Some (0%nat, back)) = Ok (Some (List.length (firstn (List.length back) ids), store 0 (map (place_of wit_docs) (firstn (List.length back) ids)) back))).
  { intros blot back ids Lb. pose proof (get_limited grow ix (place_of wit_docs) 2 _ I blot 0 back (Nat.le_0_l _) fuel) as G. cbv zeta in G.
    assert (X : held (word_hash u) 1 10 2 wit_wss (shard_of 2 blot) (slot_of 2 blot) = ids).
    { change (at_blot 2 (held (word_hash u) 1 10 2 wit_wss) blot = ids). rewrite at_blot_held; [apply wit_carriers|lia|exact Lb]. }
    rewrite X, Nat.sub_0_r in G. apply G. unfold ids. destruct (_ =? _); [cbn; lia|]. destruct (_ =? _); cbn; lia. }
  set (d1 := fun (name : string) dat => MkDoc (bs name) 0 22 dat).
  assert (E1 : query_get grow ix fuel wit_blot1 (Some (0%nat, repeat zero_doc 3)) = Ok (Some (3%nat, [d1 "/1"%string []; d1 "/2"%string []; d1 "/3"%string []]))).
  { rewrite G by reflexivity. vm_compute. reflexivity. }
  assert (E2 : query_get grow ix fuel wit_blot2 (Some (0%nat, [d1 "/1"%string wit_text1; d1 "/2"%string wit_text1; d1 "/3"%string wit_text1])) = Ok (Some (2%nat, [d1 "/4"%string wit_text1; d1 "/5"%string wit_text1; d1 "/3"%string wit_text1]))).
  { rewrite G by reflexivity. vm_compute. reflexivity. }
  assert (S1 : forall name, In name ["/1"; "/2"; "/3"]%string -> search u like_files wit_config wit_blot1 (d1 name []) = Ok (0, 21, d1 name wit_text1)).
  { intros name Hn. repeat (destruct Hn as [<-|Hn]; [vm_compute; reflexivity|]). destruct Hn. }
  exists wit_blot1, wit_blot2. eexists. eexists. eexists. exists [(0, 21, d1 "/1"%string wit_text1); (0, 21, d1 "/2"%string wit_text1); (0, 21, d1 "/3"%string wit_text1)].
  split; [exact E1|]. split; [repeat (constructor; [apply S1; cbn; auto|]); constructor|]. split; [reflexivity|]. split; [exact E2|].
  intros d Hd. cbn [firstn] in Hd. destruct Hd as [<-|[<-|[]]]; (split; [exists 0, 21; eexists|]; vm_compute; reflexivity).
Qed.
