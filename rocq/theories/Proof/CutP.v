(** Reading a file that has been cut short. *)
From Verif Require Import Model.Base Model.Varint Model.Poster Model.Shard Model.Fnames Proof.Tactics Proof.VarintP.
Local Open Scope N_scope.

(** A beginning of the data gives the same or an error. *)
Definition cuttable {A} (f : bytes -> result (A * bytes)) : Prop := forall p t v r, f (p ++ t) = Ok (v, r) ->
  (exists p', f p = Ok (v, p') /\ r = p' ++ t) \/ exists e, f p = Err e.
Lemma uvarint_aux_cut k : forall x s, cuttable (fun r => read_uvarint_aux k r x s).
Proof.
  induction k as [|k IH]; intros x s p t v r H; cbn [read_uvarint_aux] in *; [discriminate|].
  destruct p as [|b p]; [right; eauto|]. cbn [app] in H. destruct (b <? 128); [|apply (IH _ _ p t v r H)].
  destruct ((k =? 0)%nat && (1 <? b)); [discriminate|]. left. exists p. split; congruence.
Qed.
Lemma uvarint_cut : cuttable read_uvarint.
Proof. exact (uvarint_aux_cut _ 0 0). Qed.
Lemma varint_cut : cuttable read_varint.
Proof.
  intros p t v r H. unfold read_varint in *. destruct (read_uvarint (p ++ t)) as [[ux r']| | |] eqn:E; try discriminate. cbn [bind] in H.
  destruct (uvarint_cut p t _ _ E) as [(p' & -> & ->)|(e & ->)]; cbn [bind]; [left|right; eauto]. inversion H; subst. eauto.
Qed.
Lemma uvarint32_cut : cuttable read_uvarint32.
Proof.
  intros p t v r H. unfold read_uvarint32 in *. destruct (read_uvarint (p ++ t)) as [[ux r']| | |] eqn:E; try discriminate. cbn [bind] in H.
  destruct (uvarint_cut p t _ _ E) as [(p' & -> & ->)|(e & ->)]; cbn [bind]; [|right; eauto]. destruct (_ <=? ux); [discriminate|].
  left. inversion H; subst. eauto.
Qed.
Lemma bytes_cut n : cuttable (read_bytes n).
Proof.
  induction n as [|n IH]; intros p t v r H; cbn [read_bytes] in *.
  - left. exists p. split; congruence.
  - destruct p as [|b p]; [right; eauto|]. cbn [app] in H. destruct (read_bytes n (p ++ t)) as [[bs r']| | |] eqn:E; try discriminate. cbn [bind] in H.
    destruct (IH p t _ _ E) as [(p' & -> & ->)|(e & ->)]; cbn [bind]; [left|right; eauto]. inversion H; subst. eauto.
Qed.
Lemma read_n_cut n : cuttable (read_n n).
Proof.
  intros p t v r H. unfold read_n in *. destruct (N.leb_spec n (nlen (p ++ t))); [|discriminate]. inversion H; subst.
  destruct (N.leb_spec n (nlen p)) as [L|L]; [left|right; eauto]. unfold nlen in L.
  rewrite firstn_app, skipn_app. replace (N.to_nat n - length p)%nat with 0%nat by lia. cbn [firstn skipn]. rewrite app_nil_r. eauto.
Qed.

(** * The table of a shard *)
Fixpoint read_table_r (n : nat) (r : bytes) : result (list (Z * N) * bytes) :=
  match n with
  | O => Ok ([], r)
  | S k =>
      do! (hd, r) <- read_varint r;
      do! (ct, r) <- read_varint r;
      if (ct <? 0)%Z || (4294967296 <=? ct)%Z then Err EOther
      else
        do! (_, r) <- read_bytes 4 r;
        do! (t, r) <- read_table_r k r;
        Ok ((hd, Z.to_N ct) :: t, r)
  end.
Lemma read_table_r_spec n : forall r, read_table n r = do! (t, _) <- read_table_r n r; Ok t.
Proof.
  induction n as [|n IH]; intros r; cbn [read_table read_table_r bind]; [reflexivity|].
  destruct (read_varint r) as [[hd r1]| | |]; cbn [bind]; try reflexivity.
  destruct (read_varint r1) as [[ct r2]| | |]; cbn [bind]; try reflexivity. destruct (_ || _); [reflexivity|].
  destruct (read_bytes 4 r2) as [[bs r3]| | |]; cbn [bind]; try reflexivity. rewrite IH.
  destruct (read_table_r n r3) as [[tb r4]| | |]; reflexivity.
Qed.
Lemma table_cut n : cuttable (read_table_r n).
Proof.
  induction n as [|n IH]; intros p t v r H; cbn [read_table_r] in *.
  - left. exists p. split; congruence.
  - destruct (read_varint (p ++ t)) as [[hd r1]| | |] eqn:E1; try discriminate. cbn [bind] in H.
    destruct (varint_cut p t _ _ E1) as [(p1 & -> & ->)|(e & ->)]; cbn [bind]; [|right; eauto].
    destruct (read_varint (p1 ++ t)) as [[ct r2]| | |] eqn:E2; try discriminate. cbn [bind] in H.
    destruct (varint_cut p1 t _ _ E2) as [(p2 & -> & ->)|(e & ->)]; cbn [bind]; [|right; eauto].
    destruct (_ || _); [discriminate|].
    destruct (read_bytes 4 (p2 ++ t)) as [[bs r3]| | |] eqn:E3; try discriminate. cbn [bind] in H.
    destruct (bytes_cut 4 p2 t _ _ E3) as [(p3 & -> & ->)|(e & ->)]; cbn [bind]; [|right; eauto].
    destruct (read_table_r n (p3 ++ t)) as [[tb r4]| | |] eqn:E4; try discriminate. cbn [bind] in H.
    destruct (IH p3 t _ _ E4) as [(p4 & -> & ->)|(e & ->)]; cbn [bind]; [|right; eauto].
    left. inversion H; subst. eauto.
Qed.
Lemma uvarint_err k : forall r x s, (exists v r', read_uvarint_aux k r x s = Ok (v, r') /\ (length r' < length r)%nat) \/ exists e, read_uvarint_aux k r x s = Err e.
Proof.
  induction k as [|k IH]; intros r x s; cbn [read_uvarint_aux]; [right; eauto|]. destruct r as [|b r]; [right; eauto|].
  destruct (b <? 128).
  - destruct (_ && _); [right; eauto|]. left. eexists _, _. split; [reflexivity|]. cbn [length]. lia.
  - destruct (IH r (N.lor x (u64 (N.shiftl (N.land b 127) s))) (s + 7)) as [(v & r' & E & L)|(e & E)]; rewrite E; [left|right; eauto].
    eexists _, _. split; [reflexivity|]. cbn [length]. lia.
Qed.
Lemma varint_err r : (exists v r', read_varint r = Ok (v, r') /\ (length r' < length r)%nat) \/ exists e, read_varint r = Err e.
Proof.
  unfold read_varint, read_uvarint. destruct (uvarint_err max_varint_len64 r 0 0) as [(v & r' & E & L)|(e & E)]; rewrite E; cbn [bind]; [left|right; eauto].
  eexists _, _. split; [reflexivity|exact L].
Qed.
Lemma bytes_err n : forall r, (exists v r', read_bytes n r = Ok (v, r') /\ length r = (n + length r')%nat) \/ exists e, read_bytes n r = Err e.
Proof.
  induction n as [|n IH]; intros r; cbn [read_bytes]; [left; eexists _, _; split; reflexivity|].
  destruct r as [|b r]; [right; eauto|]. destruct (IH r) as [(v & r' & E & L)|(e & E)]; rewrite E; cbn [bind]; [left|right; eauto].
  eexists _, _. split; [reflexivity|]. cbn [length]. lia.
Qed.
(** Reading a table never panics, and takes at least six bytes for each slot. *)
Lemma table_err n : forall r, (exists v r', read_table_r n r = Ok (v, r') /\ (6 * n + length r' <= length r)%nat) \/ exists e, read_table_r n r = Err e.
Proof.
  induction n as [|n IH]; intros r; cbn [read_table_r]; [left; eexists _, _; split; [reflexivity|lia]|].
  destruct (varint_err r) as [(v1 & r1 & E1 & L1)|(e & E)]; [rewrite E1|rewrite E; right; exists e; reflexivity]. cbn [bind].
  destruct (varint_err r1) as [(v2 & r2 & E2 & L2)|(e & E)]; [rewrite E2|rewrite E; right; exists e; reflexivity]. cbn [bind].
  destruct (_ || _); [right; eauto|].
  destruct (bytes_err 4 r2) as [(v3 & r3 & E3 & L3)|(e & E)]; [rewrite E3|rewrite E; right; exists e; reflexivity]. cbn [bind].
  destruct (IH r3) as [(v4 & r4 & E4 & L4)|(e & E)]; [rewrite E4|rewrite E; right; exists e; reflexivity]. cbn [bind].
  left. eexists _, _. split; [reflexivity|]. lia.
Qed.

(** A shard's table, read by an appending session. *)
Fixpoint read_iix_r (n : nat) (r : bytes) : result (list poster * bytes) :=
  match n with
  | O => Ok ([], r)
  | S k => do! (p, r) <- init_append r; do! (ps, r) <- read_iix_r k r; Ok (p :: ps, r)
  end.
Lemma read_iix_r_spec n : forall r, read_iix n r = do! (t, _) <- read_iix_r n r; Ok t.
Proof.
  induction n as [|n IH]; intros r; cbn [read_iix read_iix_r bind]; [reflexivity|].
  destruct (init_append r) as [[p r1]| | |]; cbn [bind]; try reflexivity. rewrite IH. destruct (read_iix_r n r1) as [[tb r4]| | |]; reflexivity.
Qed.
Lemma lax_aux_cut k p : forall t x s, (exists v p', lax_uvarint_aux k p x s = (v, p') /\ lax_uvarint_aux k (p ++ t) x s = (v, p' ++ t)) \/
  exists v, lax_uvarint_aux k p x s = (v, []).
Proof.
  revert p. induction k as [|k IH]; intros p t x s; cbn [lax_uvarint_aux]; [left; eauto|]. destruct p as [|b p]; [right; eauto|]. cbn [app].
  destruct (b <? 128); [|apply IH]. destruct (_ && _); left; eauto.
Qed.
Lemma lax_cut p t : (exists v p', lax_varint p = (v, p') /\ lax_varint (p ++ t) = (v, p' ++ t)) \/ exists v, lax_varint p = (v, []).
Proof.
  unfold lax_varint. destruct (lax_aux_cut max_varint_len64 p t 0 0) as [(v & p' & -> & ->)|(v & ->)]; eauto.
Qed.
Lemma lax_len r v r' : lax_varint r = (v, r') -> r <> [] -> (length r' < length r)%nat.
Proof.
  assert (L : forall k r x s v r', lax_uvarint_aux k r x s = (v, r') -> (length r' <= length r)%nat /\ (k <> 0%nat -> r <> [] -> length r' < length r)%nat).
  { induction k as [|k IH]; intros r0 x s v0 r0' E; cbn [lax_uvarint_aux] in E; [inversion E; subst; split; [lia|congruence]|].
    destruct r0 as [|b r0]; [inversion E; subst; split; [lia|congruence]|]. cbn [length].
    destruct (b <? 128); [destruct (_ && _); inversion E; subst; split; lia|]. destruct (IH _ _ _ _ _ E). split; lia. }
  unfold lax_varint. destruct (lax_uvarint_aux _ r 0 0) as [ux r1] eqn:E. intros [= <- <-] Ne. apply (L _ _ _ _ _ _ E); [discriminate|exact Ne].
Qed.
Lemma append_cut : cuttable init_append.
Proof.
  intros p t v r H. unfold init_append in *.
  destruct (read_varint (p ++ t)) as [[hd r1]| | |] eqn:E1; try discriminate. cbn [bind] in H.
  destruct (varint_cut p t _ _ E1) as [(p1 & -> & ->)|(e & ->)]; cbn [bind]; [|right; eauto].
  destruct (lax_cut p1 t) as [(ct & p2 & E2 & E3)|(ct & E2)]; rewrite E2; [rewrite E3 in H|right; destruct (_ || _); eexists; reflexivity].
  destruct (_ || _); [discriminate|].
  destruct (read_bytes 4 (p2 ++ t)) as [[bs r3]| | |] eqn:E4; try discriminate. cbn [bind] in H.
  destruct (bytes_cut 4 p2 t _ _ E4) as [(p3 & -> & ->)|(e & ->)]; cbn [bind]; [|right; eauto].
  left. inversion H; subst. eauto.
Qed.
Lemma iix_cut n : cuttable (read_iix_r n).
Proof.
  induction n as [|n IH]; intros p t v r H; cbn [read_iix_r] in *.
  - left. exists p. split; congruence.
  - destruct (init_append (p ++ t)) as [[po r1]| | |] eqn:E1; try discriminate. cbn [bind] in H.
    destruct (append_cut p t _ _ E1) as [(p1 & -> & ->)|(e & ->)]; cbn [bind]; [|right; eauto].
    destruct (read_iix_r n (p1 ++ t)) as [[tb r4]| | |] eqn:E4; try discriminate. cbn [bind] in H.
    destruct (IH p1 t _ _ E4) as [(p4 & -> & ->)|(e & ->)]; cbn [bind]; [|right; eauto].
    left. inversion H; subst. eauto.
Qed.
Lemma append_err r : (exists v r', init_append r = Ok (v, r') /\ (6 + length r' <= length r)%nat) \/ exists e, init_append r = Err e.
Proof.
  unfold init_append.
  destruct (varint_err r) as [(v1 & r1 & E1 & L1)|(e & E)]; [rewrite E1|rewrite E; right; exists e; reflexivity]. cbn [bind].
  destruct (lax_varint r1) as [v2 r2] eqn:E2.
  destruct (_ || _); [right; eauto|].
  destruct (bytes_err 4 r2) as [(v3 & r3 & E3 & L3)|(e & E)]; [rewrite E3|rewrite E; right; exists e; reflexivity]. cbn [bind].
  left. eexists _, _. split; [reflexivity|]. assert (r1 <> []) as Ne by (intros ->; inversion E2; subst; cbn [length] in L3; lia). pose proof (lax_len _ _ _ E2 Ne). lia.
Qed.
Lemma iix_err n : forall r, (exists v r', read_iix_r n r = Ok (v, r') /\ (6 * n + length r' <= length r)%nat) \/ exists e, read_iix_r n r = Err e.
Proof.
  induction n as [|n IH]; intros r; cbn [read_iix_r]; [left; eexists _, _; split; [reflexivity|lia]|].
  destruct (append_err r) as [(v1 & r1 & E1 & L1)|(e & E)]; [rewrite E1|rewrite E; right; exists e; reflexivity]. cbn [bind].
  destruct (IH r1) as [(v4 & r4 & E4 & L4)|(e & E)]; [rewrite E4|rewrite E; right; exists e; reflexivity]. cbn [bind].
  left. eexists _, _. split; [reflexivity|]. lia.
Qed.

(** * The file names *)
Lemma fnames_loop_cut todo : forall i d p t v, read_fnames_loop todo i d (p ++ t) = Ok v ->
  read_fnames_loop todo i d p = Ok v \/ exists e, read_fnames_loop todo i d p = Err e.
Proof.
  induction todo as [|todo IH]; intros i d p t v H; cbn [read_fnames_loop] in *; [auto|].
  destruct (read_uvarint32 (p ++ t)) as [[len r1]| | |] eqn:E1; try discriminate. cbn [bind] in H.
  destruct (uvarint32_cut p t _ _ E1) as [(p1 & -> & ->)|(e & ->)]; cbn [bind]; [|right; eauto].
  destruct (read_n len (p1 ++ t)) as [[name r2]| | |] eqn:E2; try discriminate. cbn [bind] in H.
  destruct (read_n_cut len p1 t _ _ E2) as [(p2 & -> & ->)|(e & ->)]; cbn [bind]; [|right; eauto].
  destruct (read_uvarint32 (p2 ++ t)) as [[par r3]| | |] eqn:E3; try discriminate. cbn [bind] in H.
  destruct (uvarint32_cut p2 t _ _ E3) as [(p3 & -> & ->)|(e & ->)]; cbn [bind]; [|right; eauto].
  destruct (nth_error d i); [|discriminate]. destruct (nth_error (upd i _ d) (N.to_nat par)); [|discriminate]. apply (IH _ _ p3 t v H).
Qed.
Lemma fnames_cut p t v : read_fnames (p ++ t) = Ok v -> read_fnames p = Ok v \/ exists e, read_fnames p = Err e.
Proof.
  intros H. unfold read_fnames in *. destruct (read_uvarint32 (p ++ t)) as [[n r1]| | |] eqn:E1; try discriminate. cbn [bind] in H.
  destruct (uvarint32_cut p t _ _ E1) as [(p1 & -> & ->)|(e & ->)]; cbn [bind]; [|right; eauto]. apply (fnames_loop_cut _ _ _ p1 t v H).
Qed.
