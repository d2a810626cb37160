(** * The two readers of a shard's table *)
From Coq Require Import List NArith ZArith Lia Bool.
From Verif Require Import Model.Base Model.Varint Model.Poster Model.Shard Model.Session Model.Crash Spec.Overlong.
From Verif Require Import Proof.Tactics Proof.VarintP Proof.ShardP Proof.LiveP.
Import ListNotations.
Open Scope N_scope.

Lemma uvarint_suffix k : forall r x s v r', read_uvarint_aux k r x s = Ok (v, r') -> exists a, r = a ++ r'.
Proof.
  induction k as [|k IH]; intros r x s v r'; [discriminate|]. cbn [read_uvarint_aux]. destruct r as [|b r]; [discriminate|].
  destruct (b <? 128).
  - destruct (_ && _); [discriminate|]. intros E. injection E as _ <-. exists [b]. reflexivity.
  - intros E. destruct (IH _ _ _ _ _ E) as (a & ->). exists (b :: a). reflexivity.
Qed.
Lemma varint_suffix r v r' : read_varint r = Ok (v, r') -> exists a, r = a ++ r'.
Proof.
  unfold read_varint. destruct (read_uvarint r) as [[u r1]| | |] eqn:E; cbn [bind]; try discriminate. intros X. injection X as _ <-.
  eapply uvarint_suffix; exact E.
Qed.
Lemma uvarint_lax k : forall r x s, (exists v r', read_uvarint_aux k r x s = Ok (v, r') /\ lax_uvarint_aux k r x s = (v, r')) \/
  snd (lax_uvarint_aux k r x s) = [] \/
  exists ys, r = ys ++ snd (lax_uvarint_aux k r x s) /\ length ys = k /\
    (forall i y, nth_error ys i = Some y -> (S i < k)%nat -> 128 <= y) /\ (forall i y, nth_error ys i = Some y -> S i = k -> 2 <= y).
Proof.
  induction k as [|k IH]; intros r x s.
  - right; right. exists []. repeat split; intros [|i] y; discriminate.
  - cbn [read_uvarint_aux lax_uvarint_aux]. destruct r as [|b r]; [right; left; reflexivity|].
    destruct (N.ltb_spec b 128) as [L|L].
    + destruct ((k =? 0)%nat && (1 <? b)) eqn:E; [|left; eauto]. apply andb_prop in E. destruct E as [E1 E2]. apply Nat.eqb_eq in E1. apply N.ltb_lt in E2. subst k.
      right; right. exists [b]. cbn [snd]. repeat split; intros [|i] y Hy; try (destruct i; discriminate Hy); injection Hy as <-; lia.
    + destruct (IH r (N.lor x (u64 (N.shiftl (N.land b 127) s))) (s + 7)) as [X|[X|(ys & X1 & X2 & X3 & X4)]]; [left; exact X|right; left; exact X|].
      right; right. exists (b :: ys). split; [cbn [app]; f_equal; exact X1|]. split; [cbn [length]; lia|].
      split; intros [|i] y Hy; cbn [nth_error] in Hy; try (injection Hy as <-; lia); intros Q; [eapply X3; [exact Hy|lia]|eapply X4; [exact Hy|lia]].
Qed.
(** What the reader of totals that looks at no error gives, against the other one. *)
Lemma varint_lax r : (exists v r', read_varint r = Ok (v, r') /\ lax_varint r = (v, r')) \/ snd (lax_varint r) = [] \/ overlong r.
Proof.
  unfold read_varint, read_uvarint, lax_varint. destruct (uvarint_lax max_varint_len64 r 0 0) as [(v & r' & E1 & E2)|[E|(ys & E & L & B & T)]].
  - left. rewrite E1, E2. cbn [bind]. eauto.
  - right; left. destruct (lax_uvarint_aux _ _ _ _) as [v r']. exact E.
  - right; right. change max_varint_len64 with 10%nat in L, B, T. destruct (nth_error ys 9) as [y|] eqn:Ey; [|apply nth_error_None in Ey; lia].
    destruct (nth_error_split ys 9 Ey) as (l1 & l2 & -> & L1). rewrite app_length in L. cbn [length] in L.
    exists [], l1, y, (snd (lax_uvarint_aux max_varint_len64 r 0 0)). destruct l2; [|cbn [length] in L; lia].
    split; [rewrite E at 1; cbn [app]; rewrite <- app_assoc; reflexivity|]. split; [exact L1|]. split; [|eapply T; [exact Ey|reflexivity]].
    apply Forall_forall. intros z Hz. destruct (In_nth_error _ _ Hz) as [i Hi]. pose proof (proj1 (nth_error_Some l1 i)) as Q. rewrite Hi in Q. specialize (Q ltac:(discriminate)).
    eapply B; [rewrite nth_error_app1; [exact Hi|lia]|lia].
Qed.

Lemma overlong_app a l : overlong l -> overlong (a ++ l).
Proof. intros (a' & ys & y & b & -> & H). exists (a ++ a'), ys, y, b. split; [rewrite <- app_assoc; reflexivity|exact H]. Qed.

Lemma bytes_suffix n : forall r b r', read_bytes n r = Ok (b, r') -> exists a, r = a ++ r'.
Proof.
  induction n as [|n IH]; intros r b r'; cbn [read_bytes]; [intros E; injection E as _ <-; exists []; reflexivity|].
  destruct r as [|x r]; [discriminate|]. destruct (read_bytes n r) as [[bs r2]| | |] eqn:E; cbn [bind]; try discriminate. intros X. injection X as _ <-.
  destruct (IH _ _ _ E) as (a & ->). exists (x :: a). reflexivity.
Qed.

Lemma iix_table n : forall r ps, read_iix n r = Ok ps -> (exists t, read_table n r = Ok t) \/ overlong r.
Proof.
  induction n as [|n IH]; intros r ps; [left; exists []; reflexivity|]. cbn [read_iix read_table]. unfold init_append.
  destruct (read_varint r) as [[hd r1]| | |] eqn:E1; cbn [bind]; try discriminate. destruct (varint_suffix _ _ _ E1) as (a1 & ->).
  destruct (varint_lax r1) as [(ct & r2 & E2 & E2')|[X|X]]; [| |right; apply overlong_app, X].
  - rewrite E2, E2'. cbn [bind]. destruct (varint_suffix _ _ _ E2) as (a2 & ->). destruct (_ || _); [discriminate|].
    destruct (read_bytes 4 r2) as [[b4 r3]| | |] eqn:E3; cbn [bind]; try discriminate. destruct (bytes_suffix _ _ _ _ E3) as (a3 & ->).
    destruct (read_iix n r3) as [qs| | |] eqn:E4; cbn [bind]; try discriminate. intros _.
    destruct (IH _ _ E4) as [[t Et]|Ov]; [left; rewrite Et; cbn [bind]; eauto|right; do 3 apply overlong_app; exact Ov].
  - destruct (lax_varint r1) as [ct r2]. cbn [snd] in X. subst r2. destruct (_ || _); [discriminate|]. discriminate.
Qed.

Lemma shard_both sorted iix pos x : shard_append iix pos = Ok x -> (exists si, shard_open sorted iix pos = Ok si) \/ overlong iix.
Proof.
  unfold shard_append, shard_open. generalize num_slots as q. intros q. destruct (read_iix q iix) as [ps| | |] eqn:E; cbn [bind]; try discriminate. intros _.
  destruct (iix_table _ _ _ E) as [[t Et]|Ov]; [left; rewrite Et; cbn [bind]; eauto|right; exact Ov].
Qed.

Lemma files_both sorted n : forall fs xs, for_files shard_append n fs = Ok xs ->
  (exists ys, for_files (shard_open sorted) n fs = Ok ys) \/ exists i iix pos, nth_error fs i = Some (Some iix, Some pos) /\ overlong iix.
Proof.
  induction n as [|n IH]; intros fs xs; [left; exists []; reflexivity|]. cbn [for_files]. destruct fs as [|[[iix|] [pos|]] fs]; try discriminate.
  destruct (shard_append iix pos) as [x| | |] eqn:E; cbn [bind]; try discriminate. destruct (for_files shard_append n fs) as [xs'| | |] eqn:E'; cbn [bind]; try discriminate.
  intros _. destruct (shard_both sorted _ _ _ E) as [[si ->]|Ov]; [|right; exists O, iix, pos; auto]. cbn [bind].
  destruct (IH _ _ E') as [[ys ->]|(i & iix' & pos' & H & Ov)]; [left; cbn [bind]; eauto|right; exists (S i), iix', pos'; auto].
Qed.

(** * A total of zero, written with a tenth byte of 2 *)
Definition long_zero : bytes := repeat 128 9 ++ [2].
Lemma long_zero_lax r : lax_varint (long_zero ++ r) = (0%Z, r).
Proof. reflexivity. Qed.
Lemma long_zero_err r : read_varint (long_zero ++ r) = Err EOther.
Proof. reflexivity. Qed.
Lemma zero_lax r : lax_varint (0 :: r) = (0%Z, r).
Proof. reflexivity. Qed.

Lemma long_zero_same n hd r z : (-9223372036854775808 <= z < 9223372036854775808)%Z -> hd = put_varint z ->
  read_iix (S n) (hd ++ long_zero ++ r) = read_iix (S n) (hd ++ 0 :: r) /\ read_table (S n) (hd ++ long_zero ++ r) = Err EOther.
Proof.
  intros Hz ->. cbn [read_iix read_table]. unfold init_append. rewrite !read_varint_put by exact Hz. cbn [bind]. rewrite long_zero_lax, long_zero_err, zero_lax. split; reflexivity.
Qed.
Lemma long_zero_shard hd r z pos : (-9223372036854775808 <= z < 9223372036854775808)%Z -> hd = put_varint z ->
  shard_append (hd ++ long_zero ++ r) pos = shard_append (hd ++ 0 :: r) pos /\ forall sorted, shard_open sorted (hd ++ long_zero ++ r) pos = Err EOther.
Proof.
  intros Hz Eh. unfold shard_append, shard_open. assert (E : exists q, num_slots = S q) by (exists (Z.to_nat 65535); unfold num_slots; lia). destruct E as [q E]. generalize num_slots E. intros ? ->.
  destruct (long_zero_same q hd r z Hz Eh) as [-> ->]. split; reflexivity.
Qed.

(** A table whose first blot has no posts. *)
Lemma first_free f hist : closed_files f hist -> content_of hist 0%nat = [] ->
  exists z r, (-9223372036854775808 <= z < 9223372036854775808)%Z /\ fst f = put_varint z ++ 0 :: r.
Proof.
  intros (x & log & I & Fl & Sz & ->) C. pose proof (shard_inv_table_ok _ _ _ I Sz) as T. destruct I as (I1 & I2 & I3 & I4 & I5). cbn [fst].
  destruct (x_ind x) as [|p ps] eqn:Ex; [exfalso; revert I1; cbn [length]; unfold num_slots; lia|].
  destruct (I5 0%nat p eq_refl) as (_ & _ & _ & Ht & _). rewrite C in Ht. inversion T as [|? ? T1 T2]; subst.
  rewrite iix_bytes_cons. unfold iix_entry_writes. cbn [concat]. rewrite Ht. exists (p_head p). eexists. split; [apply T1|].
  rewrite <- !app_assoc. reflexivity.
Qed.

Lemma empty_entries ps : Forall (fun p => p_head p = (-1)%Z /\ p_total p = 0 /\ p_current p = 0) ps -> Forall (fun b => b < 128) (iix_bytes ps).
Proof.
  induction 1 as [|p ps (H1 & H2 & H3) F IH]; [constructor|]. rewrite iix_bytes_cons. apply Forall_app. split; [|exact IH].
  unfold iix_entry_writes. rewrite H1, H2, H3. repeat (constructor; [reflexivity|]). constructor.
Qed.
Lemma short_bytes l : Forall (fun b => b < 128) l -> ~ overlong l.
Proof.
  intros F (a & ys & y & b & -> & L & H & _). apply Forall_app in F. destruct F as [_ F]. apply Forall_app in F. destruct F as [F _].
  destruct ys as [|z ys]; [discriminate|]. inversion F. inversion H. subst. lia.
Qed.
(** The table of a shard without posts. *)
Lemma empty_table f hist : closed_files f hist -> (forall s, content_of hist s = []) -> ~ overlong (fst f).
Proof.
  intros (x & log & I & Fl & Sz & ->) C. cbn [fst]. apply short_bytes, empty_entries, Forall_forall. intros p Hp. destruct (In_nth_error _ _ Hp) as [s Hs].
  split; [eapply LiveP.empty_head; eauto|]. destruct I as (_ & _ & _ & _ & I5). destruct (I5 s p Hs) as (_ & _ & H3 & H4 & _). rewrite C in H3, H4. auto.
Qed.
