(** More fuel does not change a result. *)
From Verif Require Import Model.Base Model.Utf8 Model.Token Model.Blotter Model.Address Model.Poster Model.Shard Model.Config Model.Index Model.Query Model.Cmd Model.Extract Proof.Tactics Proof.ExtractP.
Local Open Scope N_scope.

Section Fuel.
  Variables (grow : nat -> nat) (ix : index).

  Lemma get_more fuel : forall fuel' lim file ps ds r, (fuel <= fuel')%nat -> get_loop grow ix fuel lim file ps ds = r -> r <> Loop ->
    get_loop grow ix fuel' lim file ps ds = r.
  Proof.
    induction fuel as [|k IH]; intros [|k'] lim file ps ds r L E Nl; cbn [get_loop] in *; try (exfalso; congruence); [lia|].
    destruct (lim && _); [exact E|]. destruct (posts_next ps file) as [[did ps']|[]| |]; try exact E.
    destruct (docid2doc ix did) as [[[p s] e]| | |]; try exact E. cbn [bind] in *.
    destruct (put_doc grow lim ds p s e); try exact E. cbn [bind] in *. apply IH; [lia|exact E|exact Nl].
  Qed.
  Lemma query_get_more fuel fuel' blot ds r : (fuel <= fuel')%nat -> query_get grow ix fuel blot ds = r -> r <> Loop -> query_get grow ix fuel' blot ds = r.
  Proof.
    intros L E Nl. unfold query_get in *. destruct (get_address _ blot) as [[sh sb]| | |]; try exact E. cbn [bind] in *.
    destruct (nth_error _ _); [|exact E]. eapply get_more; eassumption.
  Qed.
  Lemma fill_more fuel : forall fuel' lim file ps ds r, (fuel <= fuel')%nat -> fill_loop grow ix fuel lim file ps ds = r -> r <> Loop ->
    fill_loop grow ix fuel' lim file ps ds = r.
  Proof.
    induction fuel as [|k IH]; intros [|k'] lim file ps ds r L E Nl; cbn [fill_loop] in *; try (exfalso; congruence); [lia|].
    destruct (lim && _); [exact E|]. destruct (posts_next ps file) as [[did ps']|[]| |]; try exact E.
    destruct (docid2doc ix did) as [[[p s] e]| | |]; try exact E. cbn [bind] in *.
    destruct (put_doc grow lim ds p s e); try exact E. cbn [bind] in *. apply IH; [lia|exact E|exact Nl].
  Qed.
  Lemma fill_blot_more fuel fuel' q dst src pos r : (fuel <= fuel')%nat -> fill_blot grow ix fuel q dst src pos = r -> r <> Loop ->
    fill_blot grow ix fuel' q dst src pos = r.
  Proof.
    intros L E Nl. unfold fill_blot in *. destruct (nth_error _ pos) as [s|]; [|exact E].
    destruct (fill_loop grow ix fuel _ _ _ _) as [x|x| |] eqn:F; cbn [bind] in E; try congruence;
      rewrite (fill_more _ _ _ _ _ _ _ L F) by discriminate; exact E.
  Qed.
  Lemma next_iter_more fuel fuel' rn r : (fuel <= fuel')%nat -> next_iter grow ix fuel rn = r -> r <> Loop -> next_iter grow ix fuel' rn = r.
  Proof.
    intros L E Nl. unfold next_iter in *. destruct (nth_error (r_dst rn) (r_n rn)) as [en|]; [|exact E].
    destruct (nth_error _ _) as [[rs|]|]; [|exact E|exact E].
    destruct (fill_blot grow ix fuel _ _ _ _) as [x|x| |] eqn:F; cbn [bind] in E; try congruence;
      rewrite (fill_blot_more _ _ _ _ _ _ _ L F) by discriminate; exact E.
  Qed.
  Lemma next_more fuel fuel' : (fuel <= fuel')%nat -> forall k k' rn r, (k <= k')%nat -> next_loop grow ix fuel k rn = r -> r <> Loop ->
    next_loop grow ix fuel' k' rn = r.
  Proof.
    intros L. induction k as [|k IH]; intros [|k'] rn r Lk E Nl; cbn [next_loop] in *; try (exfalso; congruence); [lia|].
    destruct (next_iter grow ix fuel rn) as [[rn' v]|x| |] eqn:F; cbn [bind] in E; try (exfalso; congruence);
      rewrite (next_iter_more _ _ _ _ L F) by discriminate; cbn [bind]; try exact E.
    destruct v; try exact E. apply IH; [lia|exact E|exact Nl].
  Qed.
  Lemma extract_more js T fuel fuel' k k' : (fuel <= fuel')%nat -> (k <= k')%nat -> forall calls calls' q b r, (calls <= calls')%nat ->
    extract_loop grow ix js T fuel k calls q b = r -> r <> Loop -> extract_loop grow ix js T fuel' k' calls' q b = r.
  Proof.
    intros L Lk. induction calls as [|calls IH]; intros [|calls'] q b r Lc E Nl; rewrite ?extract_loop_O, ?extract_loop_S in *; try (exfalso; congruence); [lia|].
    unfold query_next in *. destruct (next_loop grow ix fuel k _) as [[rn eof]|x| |] eqn:F; try (exfalso; congruence);
      rewrite (next_more _ _ L _ _ _ _ Lk F) by discriminate; try exact E.
    destruct eof; [exact E|]. destruct (r_n rn =? 0)%nat; [exact E|]. destruct (r_dst rn) as [|e t]; [exact E|].
    destruct (_ <? T)%Z; [exact E|].
    destruct (extract_loop grow ix js T fuel k calls _ _) as [o|x| |] eqn:F2; cbn [bind] in E; try (exfalso; congruence);
      rewrite (IH calls' _ _ _ ltac:(lia) F2) by discriminate; exact E.
  Qed.
  (** Two results are the same, however much fuel either had. *)
  Theorem extract_same js T fuel k calls fuel' k' calls' r r' :
    extract grow ix js T fuel k calls = r -> r <> Loop -> extract grow ix js T fuel' k' calls' = r' -> r' <> Loop -> r = r'.
  Proof.
    intros E Nl E' Nl'. unfold extract in *.
    apply (extract_more js T _ (max fuel fuel') _ (max k k')) with (calls' := max calls calls') in E; [|lia|lia|lia|exact Nl].
    apply (extract_more js T _ (max fuel fuel') _ (max k k')) with (calls' := max calls calls') in E'; [|lia|lia|lia|exact Nl'].
    congruence.
  Qed.

  Variables (u : unicode) (fs : files).
  Lemma like_loop_more fuel fuel' bm : (fuel <= fuel')%nat -> forall blots found r, like_loop u fs grow ix fuel bm blots found = r -> r <> Loop ->
    like_loop u fs grow ix fuel' bm blots found = r.
  Proof.
    intros L. induction blots as [|b blots IH]; intros found r E Nl; cbn [like_loop] in *; [exact E|].
    destruct (_ =? 0); [exact E|].
    destruct (query_get grow ix fuel _ None) as [ds|x| |] eqn:F; cbn [bind] in E; try (exfalso; congruence);
      rewrite (query_get_more _ _ _ _ _ L F) by discriminate; cbn [bind]; try exact E.
    destruct (like_docs _ _ _ _ _ found); cbn [bind] in *; try exact E. apply IH; assumption.
  Qed.
  Lemma like_file_more fuel fuel' fname dat r : (fuel <= fuel')%nat -> like_file u fs grow ix fuel fname dat = r -> r <> Loop ->
    like_file u fs grow ix fuel' fname dat = r.
  Proof.
    intros L E Nl. unfold like_file in *. destruct (blot_doc _ _ _ _); cbn [bind] in *; try exact E.
    destruct (idx_tokenize _ _ _ _); cbn [bind] in *; try exact E. destruct (like_texts _ _ _ _ _ _); cbn [bind] in *; try exact E.
    eapply like_loop_more; eassumption.
  Qed.
  Theorem like_same fuel fuel' fname dat r r' : like_file u fs grow ix fuel fname dat = r -> r <> Loop ->
    like_file u fs grow ix fuel' fname dat = r' -> r' <> Loop -> r = r'.
  Proof.
    intros E Nl E' Nl'. apply (like_file_more _ (max fuel fuel')) in E; [|lia|exact Nl]. apply (like_file_more _ (max fuel fuel')) in E'; [|lia|exact Nl']. congruence.
  Qed.
  Lemma unblot_more fuel fuel' all blot r : (fuel <= fuel')%nat -> unblot u fs grow ix fuel all blot = r -> r <> Loop ->
    unblot u fs grow ix fuel' all blot = r.
  Proof.
    intros L E Nl. unfold unblot in *.
    destruct (query_get grow ix fuel blot None) as [ds|x| |] eqn:F; cbn [bind] in E.
    4: exfalso; apply Nl; symmetry; exact E.
    all: rewrite (query_get_more _ _ _ _ _ L F) by discriminate; exact E.
  Qed.
  Theorem unblot_same fuel fuel' all blot r r' : unblot u fs grow ix fuel all blot = r -> r <> Loop ->
    unblot u fs grow ix fuel' all blot = r' -> r' <> Loop -> r = r'.
  Proof.
    intros E Nl E' Nl'. apply (unblot_more _ (max fuel fuel')) in E; [|lia|exact Nl]. apply (unblot_more _ (max fuel fuel')) in E'; [|lia|exact Nl']. congruence.
  Qed.
End Fuel.
