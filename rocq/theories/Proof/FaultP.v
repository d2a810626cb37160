(** One failing write to a posting file. *)
From Verif Require Import Model.Base Model.Varint Model.Post Model.Poster Model.Shard Model.Fault
  Spec.Postings Spec.Reading Proof.Tactics Proof.VarintP Proof.PosterP Proof.ShardP Proof.KeepP.
Local Open Scope N_scope.

(** * The file as a list of chunks and leftovers of failed writes *)
Inductive item := Chunk (s : nat) (pl : bytes) | Junk (b : bytes).
Definition hdr (pl : bytes) : bytes := put_varint (Z.of_nat (length pl + 8)).
Definition item_len (i : item) : nat :=
  match i with Chunk _ pl => length (hdr pl) + length pl + 8 | Junk b => length b end.
Fixpoint isize (l : list item) : nat := match l with [] => 0%nat | i :: r => (item_len i + isize r)%nat end.
Definition is_of (s : nat) (i : item) : bool := match i with Chunk s' _ => (s' =? s)%nat | Junk _ => false end.
Fixpoint inext (s base : nat) (l : list item) : Z :=
  match l with
  | [] => (-1)%Z
  | i :: r => if is_of s i then Z.of_nat base else inext s (base + item_len i) r
  end.
Fixpoint ilink (s base : nat) (l : list item) : Z :=
  match l with
  | [] => (-1)%Z
  | i :: r =>
      let k := ilink s (base + item_len i) r in
      if (k =? -1)%Z then if is_of s i then (Z.of_nat (base + item_len i) - 8)%Z else (-1)%Z else k
  end.
(** [fin s]: the link of the last chunk of slot [s]. *)
Fixpoint irender (fin : nat -> bytes) (base : nat) (l : list item) : bytes :=
  match l with
  | [] => []
  | Junk b :: r => b ++ irender fin (base + length b) r
  | Chunk s pl :: r =>
      let base' := (base + item_len (Chunk s pl))%nat in
      hdr pl ++ pl ++ (if (inext s base' r =? -1)%Z then fin s else link_bytes (inext s base' r))
        ++ irender fin base' r
  end.
Fixpoint ichunks (s : nat) (l : list item) : list bytes :=
  match l with
  | [] => []
  | Chunk s' pl :: r => if (s' =? s)%nat then pl :: ichunks s r else ichunks s r
  | Junk _ :: r => ichunks s r
  end.
Definition fin8 (fin : nat -> bytes) : Prop := forall s, length (fin s) = 8%nat.
Definition setf (fin : nat -> bytes) (s : nat) (d : bytes) : nat -> bytes :=
  fun s' => if (s' =? s)%nat then d else fin s'.
Definition ff8 : bytes := link_bytes (-1).

Lemma setf_same fin s d : setf fin s d s = d.
Proof. unfold setf. rewrite Nat.eqb_refl. reflexivity. Qed.
Lemma setf_other fin s d s' : s' <> s -> setf fin s d s' = fin s'.
Proof. intros H. unfold setf. destruct (Nat.eqb_spec s' s); congruence. Qed.
Lemma setf_8 fin s d : fin8 fin -> length d = 8%nat -> fin8 (setf fin s d).
Proof. intros F D s'. unfold setf. destruct (s' =? s)%nat; auto. Qed.

Lemma isize_app a b : isize (a ++ b) = (isize a + isize b)%nat.
Proof. induction a as [|i a IH]; cbn [app isize]; lia. Qed.
Lemma irender_length fin l : fin8 fin -> forall base, length (irender fin base l) = isize l.
Proof.
  intros F. induction l as [|[s pl|b] r IH]; intros base; [reflexivity| |]; cbn [irender isize]; rewrite !app_length, IH.
  - cbn [item_len]. destruct (_ =? -1)%Z; rewrite ?F, ?link_bytes_length; lia.
  - cbn [item_len]. lia.
Qed.
Lemma inext_none s l : forall base, inext s base l = (-1)%Z <-> ichunks s l = [].
Proof.
  induction l as [|[s' pl|b] r IH]; intros base; cbn [inext ichunks is_of]; [tauto| |apply IH].
  destruct (s' =? s)%nat; [split; [lia|discriminate]|apply IH].
Qed.
Lemma ilink_none s l : forall base, ilink s base l = (-1)%Z <-> ichunks s l = [].
Proof.
  induction l as [|i r IH]; intros base; cbn [ilink]; [cbn; tauto|].
  destruct (Z.eqb_spec (ilink s (base + item_len i) r) (-1)) as [E|E].
  - apply IH in E. destruct i as [s' pl|b]; cbn [is_of ichunks].
    + destruct (s' =? s)%nat; [|tauto]. cbn [item_len]. split; [lia|discriminate].
    + tauto.
  - split; [tauto|]. intros C. exfalso. apply E, IH. destruct i as [s' pl|b]; cbn [ichunks] in C; [|exact C].
    destruct (s' =? s)%nat; [discriminate|exact C].
Qed.
Lemma ilink_range s l : forall base, ilink s base l = (-1)%Z \/
  (Z.of_nat base <= ilink s base l /\ ilink s base l + 8 <= Z.of_nat (base + isize l))%Z.
Proof.
  induction l as [|i r IH]; intros base; cbn [ilink isize]; [auto|].
  destruct (Z.eqb_spec (ilink s (base + item_len i) r) (-1)) as [E|E].
  - destruct i as [s' pl|b]; cbn [is_of item_len]; [|auto]. destruct (s' =? s)%nat; lia.
  - destruct (IH (base + item_len i)%nat); lia.
Qed.
Lemma inext_range s l : forall base, inext s base l = (-1)%Z \/
  (Z.of_nat base <= inext s base l < Z.of_nat (base + isize l))%Z.
Proof.
  induction l as [|i r IH]; intros base; cbn [inext isize]; [auto|].
  destruct i as [s' pl|b]; cbn [is_of item_len].
  - destruct (s' =? s)%nat; [lia|]. destruct (IH (base + (length (hdr pl) + length pl + 8))%nat); lia.
  - destruct (IH (base + length b)%nat); lia.
Qed.
Lemma ichunks_app s a b : ichunks s (a ++ b) = ichunks s a ++ ichunks s b.
Proof. induction a as [|[s' pl|j] a IH]; cbn [app ichunks]; auto. destruct (s' =? s)%nat; cbn [app]; congruence. Qed.
Lemma inext_app s a : forall b base, inext s base (a ++ b) =
  if (inext s base a =? -1)%Z then inext s (base + isize a) b else inext s base a.
Proof.
  induction a as [|i a IH]; intros b base; cbn [app inext isize].
  - rewrite Nat.add_0_r. reflexivity.
  - destruct (is_of s i).
    + destruct (Z.eqb_spec (Z.of_nat base) (-1)); [lia|reflexivity].
    + rewrite IH, Nat.add_assoc. reflexivity.
Qed.
Lemma ilink_app s a : forall b base, ilink s base (a ++ b) =
  if (ilink s (base + isize a) b =? -1)%Z then ilink s base a else ilink s (base + isize a) b.
Proof.
  induction a as [|i a IH]; intros b base; cbn [app ilink isize].
  - rewrite Nat.add_0_r. destruct (Z.eqb_spec (ilink s base b) (-1)); congruence.
  - rewrite IH, Nat.add_assoc. destruct (Z.eqb_spec (ilink s (base + item_len i + isize a) b) (-1)) as [E|E]; [reflexivity|].
    destruct (Z.eqb_spec (ilink s (base + item_len i + isize a) b) (-1)); [contradiction|reflexivity].
Qed.
Lemma skipn_irender fin l1 : fin8 fin -> forall base l2,
  skipn (isize l1) (irender fin base (l1 ++ l2)) = irender fin (base + isize l1) l2.
Proof.
  intros F. induction l1 as [|i r IH]; intros base l2; cbn [app isize].
  - rewrite Nat.add_0_r. reflexivity.
  - rewrite skipn_add. replace (base + (item_len i + isize r))%nat with (base + item_len i + isize r)%nat by lia.
    rewrite <- IH. f_equal. destruct i as [s pl|b]; cbn [irender].
    + rewrite !app_assoc. apply skipn_app_exact. rewrite !app_length. cbn [item_len].
      destruct (_ =? -1)%Z; rewrite ?F, ?link_bytes_length; lia.
    + apply skipn_app_exact. reflexivity.
Qed.
Lemma irender_ext fin fin' l : (forall s, ichunks s l <> [] -> fin s = fin' s) ->
  forall base, irender fin base l = irender fin' base l.
Proof.
  induction l as [|[s pl|b] r IH]; intros H base; cbn [irender]; [reflexivity| |].
  - rewrite (H s) by (cbn [ichunks]; rewrite Nat.eqb_refl; discriminate). do 3 f_equal. apply IH.
    intros s' Hs. apply H. cbn [ichunks]. destruct (s =? s')%nat; [discriminate|exact Hs].
  - f_equal. apply IH. exact H.
Qed.

(** Overwriting the link of a slot's last chunk. *)
Lemma irender_link s d : forall l fin base, fin8 fin -> (length d <= 8)%nat -> ilink s base l <> (-1)%Z ->
  pwrite (irender fin base l) (Z.to_nat (ilink s base l) - base) d =
  irender (setf fin s (d ++ skipn (length d) (fin s))) base l.
Proof.
  induction l as [|i r IH]; intros fin base F D L; cbn [ilink] in *; [congruence|].
  set (fin' := setf fin s (d ++ skipn (length d) (fin s))).
  destruct (Z.eqb_spec (ilink s (base + item_len i) r) (-1)) as [E|E].
  - destruct i as [s' pl|b]; cbn [is_of] in *; [|congruence].
    destruct (Nat.eqb_spec s' s) as [->|Ne]; [|congruence].
    pose proof (proj1 (ilink_none s r _) E) as N0. cbn [irender].
    rewrite (proj2 (inext_none s r _) N0). change (-1 =? -1)%Z with true. cbn iota.
    rewrite (irender_ext fin' fin r) by (intros s0 Hs; unfold fin'; apply setf_other; congruence).
    unfold fin' at 1. rewrite setf_same.
    replace (Z.to_nat (Z.of_nat (base + item_len (Chunk s pl)) - 8) - base)%nat with (length (hdr pl ++ pl) + 0)%nat
      by (rewrite app_length; cbn [item_len]; lia).
    rewrite app_assoc, pwrite_app_r, pwrite_in by (rewrite F; exact D). rewrite <- !app_assoc. reflexivity.
  - destruct (ilink_range s r (base + item_len i)) as [|R]; [contradiction|]. specialize (IH fin (base + item_len i)%nat F D E).
    destruct i as [s' pl|b]; cbn [irender].
    + rewrite (pwrite_past3 _ _ _ _ _ _ (Z.to_nat (ilink s (base + item_len (Chunk s' pl)) r) - (base + item_len (Chunk s' pl)))).
      * rewrite IH. do 2 f_equal. f_equal.
        destruct (Z.eqb_spec (inext s' (base + item_len (Chunk s' pl)) r) (-1)) as [E1|E1]; [|reflexivity].
        unfold fin'. symmetry. apply setf_other. intros ->. apply E. apply ilink_none. apply inext_none in E1. exact E1.
      * destruct (_ =? -1)%Z; rewrite ?F, ?link_bytes_length; cbn [item_len] in *; lia.
    + cbn [item_len] in *. fold fin' in IH. rewrite <- IH.
      replace (Z.to_nat (ilink s (base + length b) r) - base)%nat with (length b + (Z.to_nat (ilink s (base + length b) r) - (base + length b)))%nat by lia.
      rewrite pwrite_app_r. reflexivity.
Qed.
Lemma irender_junk fin b l : forall base, irender fin base (l ++ [Junk b]) = irender fin base l ++ b.
Proof.
  induction l as [|[s pl|j] r IH]; intros base; cbn [app irender].
  - apply app_nil_r.
  - rewrite IH, <- !app_assoc. do 2 f_equal. f_equal. rewrite inext_app. cbn [inext is_of].
    destruct (Z.eqb_spec (inext s (base + item_len (Chunk s pl)) r) (-1)) as [E|E]; [reflexivity|].
    apply Z.eqb_neq in E. rewrite E. reflexivity.
  - rewrite IH, <- app_assoc. reflexivity.
Qed.
(** Appending a chunk: the link of the last chunk before points to it. *)
Lemma irender_chunk fin fin' s pl l : (forall s', s' <> s -> fin' s' = fin s') -> forall base,
  irender fin' base (l ++ [Chunk s pl]) =
  irender (setf fin s (link_bytes (Z.of_nat (base + isize l)))) base l ++ hdr pl ++ pl ++ fin' s.
Proof.
  intros F. induction l as [|[s' pl'|j] r IH]; intros base; cbn [app irender isize].
  - cbn [inext]. change (-1 =? -1)%Z with true. cbn iota. rewrite app_nil_r. reflexivity.
  - rewrite IH, <- !app_assoc. do 2 f_equal.
    replace (base + (item_len (Chunk s' pl') + isize r))%nat with (base + item_len (Chunk s' pl') + isize r)%nat by lia.
    f_equal. rewrite inext_app. cbn [inext is_of].
    destruct (Z.eqb_spec (inext s' (base + item_len (Chunk s' pl')) r) (-1)) as [E|E].
    + rewrite Nat.eqb_sym. unfold setf. destruct (Nat.eqb_spec s' s) as [->|Ne].
      * destruct (Z.eqb_spec (Z.of_nat (base + item_len (Chunk s pl') + isize r)) (-1)); [lia|reflexivity].
      * change (-1 =? -1)%Z with true. cbn iota. apply F, Ne.
    + destruct (Z.eqb_spec (inext s' (base + item_len (Chunk s' pl')) r) (-1)); [contradiction|reflexivity].
  - rewrite IH, <- !app_assoc. cbn [item_len].
    replace (base + (length j + isize r))%nat with (base + length j + isize r)%nat by lia. reflexivity.
Qed.

(** * Flushing one slot *)
(** Nothing of the other slots is touched. *)
Definition ext (s : nat) (items : list item) (fin : nat -> bytes) (items' : list item) (fin' : nat -> bytes) : Prop :=
  (exists tl, items' = items ++ tl /\ forall s', s' <> s -> ichunks s' tl = []) /\
  forall s', s' <> s -> fin' s' = fin s'.
Lemma ext_refl s items fin : ext s items fin items fin.
Proof. split; [exists []; rewrite app_nil_r; auto|auto]. Qed.

Lemma ilink_snoc_chunk s pl l base : ilink s base (l ++ [Chunk s pl]) = (Z.of_nat (base + isize l + item_len (Chunk s pl)) - 8)%Z.
Proof.
  rewrite ilink_app. cbn [ilink is_of]. change (-1 =? -1)%Z with true. cbn iota. rewrite Nat.eqb_refl.
  destruct (Z.eqb_spec (Z.of_nat (base + isize l + item_len (Chunk s pl)) - 8) (-1)); [cbn [item_len] in *; lia|reflexivity].
Qed.

Definition unfailed (ft ft' : fault) : Prop := ft = None -> ft' = None.
Lemma write_f_ok f off d ft f' ft' : write_f f off d ft = (f', ft', true) -> f' = pwrite f off d /\ unfailed ft ft'.
Proof. unfold write_f, unfailed. destruct ft as [[[|n] k]|]; intros H; inv H; split; congruence. Qed.
Lemma write_f_fails f off d ft f' ft' : write_f f off d ft = (f', ft', false) ->
  ft <> None /\ ft' = None /\ exists k, f' = pwrite f off (firstn k d).
Proof. unfold write_f. destruct ft as [[[|n] k]|]; intros H; inv H. split; [discriminate|]. split; [reflexivity|eauto]. Qed.

Lemma append_spec s items fin p f ft pl p' f' ft' e :
  fin8 fin -> fin s = link_bytes (Z.of_nat (isize items)) -> f = irender fin 0 items ->
  p_link p = ilink s 0 items ->
  p_head p = (if (ilink s 0 items =? -1)%Z then Z.of_nat (isize items) else inext s 0 items) ->
  p_posts p = pl -> append_f p (isize items) f ft = (p', f', ft', e) ->
  exists items' fin', fin8 fin' /\ f' = irender fin' 0 items' /\ ext s items fin items' fin' /\
    (length f' <= length f + length pl + 18)%nat /\
    match e with
    | None => p' = MkPoster (ilink s 0 items') (inext s 0 items') (p_current p) (p_total p) [] /\
              ichunks s items' = ichunks s items ++ [pl] /\ fin' s = ff8 /\ unfailed ft ft'
    | Some w => ft <> None /\ ft' = None /\ p_link p' = ilink s 0 items' /\
                (ilink s 0 items' = (-1)%Z \/ p_head p' = inext s 0 items') /\
                ichunks s items' = ichunks s items /\ p_current p' = p_current p /\ p_total p' = p_total p /\
                w <> FLink /\ p_posts p' = pl ++ ff8
    end.
Proof.
  intros F Fs Hf Hl Hh Hp H. unfold append_f in H. rewrite Hp in H.
  change (put_be64 (u64_of_i64 (-1))) with ff8 in H.
  assert (length ff8 = 8%nat) as L8 by apply link_bytes_length.
  assert (put_varint (zlen (pl ++ ff8)) = hdr pl) as Eh by (unfold zlen, hdr; rewrite app_length, L8; reflexivity).
  rewrite Eh in H.
  assert (length f = isize items) as Lf by (subst f; apply irender_length; exact F).
  assert (length (hdr pl) <= 10)%nat as Lh by apply put_varint_len.
  assert (forall b, inext s 0 (items ++ [Junk b]) = inext s 0 items /\ ilink s 0 (items ++ [Junk b]) = ilink s 0 items) as J.
  { intros b. rewrite inext_app, ilink_app. cbn [inext ilink is_of]. change (-1 =? -1)%Z with true. cbn iota.
    split; [|reflexivity]. destruct (Z.eqb_spec (inext s 0 items) (-1)); congruence. }
  assert (forall b fin, ext s items fin (items ++ [Junk b]) fin) as EJ.
  { intros b fin0. split; [|auto]. exists [Junk b]. auto. }
  assert (ilink s 0 items = (-1)%Z \/ p_head p = inext s 0 items) as Hh'
    by (rewrite Hh; destruct (Z.eqb_spec (ilink s 0 items) (-1)); auto).
  destruct (write_f f (isize items) (hdr pl) ft) as [[f1 ft1] ok1] eqn:E1. destruct ok1; cbn [negb] in H.
  - apply write_f_ok in E1. destruct E1 as [-> U1]. rewrite <- Lf, pwrite_end in H.
    replace (length f + length (hdr pl))%nat with (length (f ++ hdr pl)) in H by apply app_length.
    destruct (write_f (f ++ hdr pl) (length (f ++ hdr pl)) (pl ++ ff8) ft1) as [[f2 ft2] ok2] eqn:E2. destruct ok2; cbn [negb] in H.
    + apply write_f_ok in E2. destruct E2 as [-> U2]. rewrite pwrite_end in H. inv H.
      exists (items ++ [Chunk s (p_posts p)]), (setf fin s ff8). set (pl := p_posts p) in *.
      set (f := irender fin 0 items) in *.
      split; [apply setf_8; auto|]. split.
      { rewrite (irender_chunk fin) by (intros; apply setf_other; auto).
        rewrite setf_same, (irender_ext _ fin). { rewrite <- app_assoc. reflexivity. }
        intros s' _. unfold setf. destruct (Nat.eqb_spec s' s) as [->|]; [|reflexivity]. rewrite Fs. reflexivity. }
      split.
      { split; [|intros; apply setf_other; auto]. exists [Chunk s pl]. split; [reflexivity|].
        intros s' Hs. cbn [ichunks]. destruct (Nat.eqb_spec s s'); [congruence|reflexivity]. }
      split. { rewrite !app_length, L8. lia. }
      split; [|split; [|split; [apply setf_same|unfold unfailed in *; auto]]].
      * f_equal.
        -- rewrite ilink_snoc_chunk. unfold zlen. rewrite app_length, L8. cbn [item_len]. lia.
        -- cbn [p_head]. rewrite Hh, inext_app. cbn [inext is_of]. rewrite Nat.eqb_refl, Nat.add_0_l.
           pose proof (ilink_none s items 0) as A. pose proof (inext_none s items 0) as B.
           destruct (Z.eqb_spec (ilink s 0 items) (-1)); destruct (Z.eqb_spec (inext s 0 items) (-1)); tauto || reflexivity.
      * rewrite ichunks_app. cbn [ichunks]. rewrite Nat.eqb_refl. reflexivity.
    + apply write_f_fails in E2. destruct E2 as (N2 & -> & k & ->). rewrite pwrite_end in H. inv H.
      set (pl := p_posts p) in *. set (f := irender fin 0 items) in *.
      exists (items ++ [Junk (hdr pl ++ firstn k (pl ++ ff8))]), fin.
      split; [exact F|]. split; [rewrite irender_junk, app_assoc; reflexivity|]. split; [apply EJ|].
      split. { rewrite !app_length, firstn_length, app_length, L8. lia. }
      cbn [p_link p_head p_current p_total p_posts]. destruct (J (hdr pl ++ firstn k (pl ++ ff8))) as [-> ->].
      split. { intros ->. apply N2. apply U1. reflexivity. }
      split; [reflexivity|]. split; [exact Hl|]. split; [exact Hh'|].
      split; [rewrite ichunks_app; cbn [ichunks]; apply app_nil_r|]. split; [reflexivity|]. split; [reflexivity|].
      split; [discriminate|reflexivity].
  - apply write_f_fails in E1. destruct E1 as (N1 & -> & k & ->). rewrite <- Lf, pwrite_end in H. inv H.
    set (pl := p_posts p) in *. set (f := irender fin 0 items) in *.
    exists (items ++ [Junk (firstn k (hdr pl))]), fin.
    split; [exact F|]. split; [rewrite irender_junk; reflexivity|]. split; [apply EJ|].
    split. { rewrite !app_length, firstn_length. lia. }
    cbn [p_link p_head p_current p_total p_posts]. destruct (J (firstn k (hdr pl))) as [-> ->].
    split; [exact N1|].
    split; [reflexivity|]. split; [exact Hl|]. split; [exact Hh'|].
    split; [rewrite ichunks_app; cbn [ichunks]; apply app_nil_r|]. split; [reflexivity|]. split; [reflexivity|].
    split; [discriminate|reflexivity].
Qed.

Lemma ext_setf s items fin d items' fin' : ext s items (setf fin s d) items' fin' -> ext s items fin items' fin'.
Proof. intros [A B]. split; [exact A|]. intros s' Hs. rewrite B by exact Hs. apply setf_other, Hs. Qed.

Lemma flush_f_spec s items fin p f ft pl p' f' ft' e :
  fin8 fin -> f = irender fin 0 items -> p_link p = ilink s 0 items ->
  (ilink s 0 items = (-1)%Z \/ p_head p = inext s 0 items) ->
  p_posts p = pl -> pl <> [] -> flush_to_f p f ft = (p', f', ft', e) ->
  exists items' fin', fin8 fin' /\ f' = irender fin' 0 items' /\ ext s items fin items' fin' /\
    (length f' <= length f + length pl + 18)%nat /\
    match e with
    | None => p' = MkPoster (ilink s 0 items') (inext s 0 items') (p_current p) (p_total p) [] /\
              ichunks s items' = ichunks s items ++ [pl] /\ fin' s = ff8 /\ unfailed ft ft'
    | Some FLink => ft <> None /\ ft' = None /\ p' = p /\ items' = items
    | Some _ => ft <> None /\ ft' = None /\ p_link p' = ilink s 0 items' /\
                (ilink s 0 items' = (-1)%Z \/ p_head p' = inext s 0 items') /\
                ichunks s items' = ichunks s items /\ p_current p' = p_current p /\ p_total p' = p_total p /\
                p_posts p' = pl ++ ff8
    end.
Proof.
  intros F Hf Hl Hh Hp Hne H. unfold flush_to_f in H. rewrite Hp in H.
  assert (forall A (a b : A), match pl with [] => a | _ => b end = b) as M by (intros; destruct pl; congruence).
  rewrite M in H. clear M.
  assert (length f = isize items) as Lf by (subst f; apply irender_length; exact F).
  rewrite Lf in H. fold (link_bytes (Z.of_nat (isize items))) in H.
  set (lk := link_bytes (Z.of_nat (isize items))) in *.
  assert (length lk = 8%nat) as L8 by apply link_bytes_length.
  destruct (Z.eqb_spec (p_link p) (-1)) as [E|E]; cbn [negb] in H.
  - assert (ilink s 0 items = (-1)%Z) as El by congruence.
    set (fin1 := setf fin s lk).
    assert (f = irender fin1 0 items) as Hf1.
    { rewrite Hf. apply irender_ext. intros s' Hs. unfold fin1. symmetry. apply setf_other. intros ->.
      apply Hs. apply ilink_none in El. exact El. }
    set (p1 := MkPoster _ _ _ _ _) in H.
    assert (p_head p1 = if (ilink s 0 items =? -1)%Z then Z.of_nat (isize items) else inext s 0 items) as Hh1
      by (rewrite El; reflexivity).
    destruct (append_spec s items fin1 p1 f ft pl p' f' ft' e (setf_8 _ _ _ F L8) (setf_same _ _ _) Hf1 Hl
      Hh1 eq_refl H) as (items' & fin' & A1 & A2 & A3 & A4 & A5).
    exists items', fin'. split; [exact A1|]. split; [exact A2|]. split; [exact (ext_setf _ _ _ _ _ _ A3)|]. split; [exact A4|].
    cbn [p_current p_total] in A5. destruct e as [[]|]; [|tauto|tauto|exact A5].
    exfalso. tauto.
  - destruct Hh as [Hh|Hh]; [congruence|]. assert (ilink s 0 items <> (-1)%Z) as En by congruence.
    destruct (write_f f (Z.to_nat (p_link p)) lk ft) as [[f1 ft1] ok1] eqn:E1. destruct ok1; cbn [negb] in H.
    + apply write_f_ok in E1. destruct E1 as [Hf1 U1].
      rewrite Hl in Hf1. pose proof (irender_link s lk items fin 0 F ltac:(lia) En) as RL. rewrite Nat.sub_0_r, <- Hf in RL.
      rewrite RL in Hf1. rewrite L8 in Hf1. rewrite (skipn_all2 (fin s)) in Hf1 by (rewrite F; lia). rewrite app_nil_r in Hf1.
      set (fin1 := setf fin s lk) in *.
      destruct (append_spec s items fin1 p f1 ft1 pl p' f' ft' e (setf_8 _ _ _ F L8) (setf_same _ _ _) Hf1 Hl
        ltac:(rewrite Hh; destruct (Z.eqb_spec (ilink s 0 items) (-1)); congruence) Hp H) as (items' & fin' & A1 & A2 & A3 & A4 & A5).
      assert (length f1 = length f) as Lf1 by (rewrite Hf1, Lf; apply irender_length, setf_8; auto).
      exists items', fin'. split; [exact A1|]. split; [exact A2|]. split; [exact (ext_setf _ _ _ _ _ _ A3)|]. split; [lia|].
      destruct e as [w|].
      * destruct A5 as (B1 & B2 & B3 & B4 & B5 & B6 & B7 & B8 & B9).
        assert (ft <> None) by (intros Z; apply B1, U1, Z).
        destruct w; [congruence| |]; split; auto 10.
      * destruct A5 as (B1 & B2 & B3 & B4). repeat split; auto. unfold unfailed in *. auto.
    + apply write_f_fails in E1. destruct E1 as (N1 & -> & k & ->). inv H.
      set (d := firstn k lk). assert (length d <= 8)%nat as Ld by (unfold d; rewrite firstn_length; lia).
      exists items, (setf fin s (d ++ skipn (length d) (fin s))).
      assert (fin8 (setf fin s (d ++ skipn (length d) (fin s)))) as F1.
      { apply setf_8; [exact F|]. rewrite app_length, skipn_length, F. lia. }
      rewrite Hl. pose proof (irender_link s d items fin 0 F Ld En) as RL. rewrite Nat.sub_0_r in RL. rewrite RL.
      split; [exact F1|]. split; [reflexivity|]. split; [exact (ext_setf _ _ _ _ _ _ (ext_refl _ _ _))|].
      split; [|auto]. rewrite !irender_length by assumption. lia.
Qed.
