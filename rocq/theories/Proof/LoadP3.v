(** What Load reads. *)
From Verif Require Import Model.Base Model.Index Model.Query Model.Cmd Model.Loading.
From Verif Require Import Spec.Querying Spec.Loading.
From Verif Require Import Proof.Tactics.
Local Open Scope N_scope.

Lemma sub32_up a b : b <= a -> a < 2 ^ 32 -> sub32 a b = a - b.
Proof.
  intros L H. unfold sub32, u32. change (2 ^ 32) with 4294967296 in H.
  replace (a + 4294967296 - b) with (a - b + 1 * 4294967296) by lia. rewrite N.mod_add by lia. apply N.mod_small. lia.
Qed.
Lemma sub32_down a b : a < b -> b < 2 ^ 32 -> sub32 a b = a + 4294967296 - b.
Proof. intros L H. unfold sub32, u32. change (2 ^ 32) with 4294967296 in H. apply N.mod_small. lia. Qed.
Lemma pread_ok f off n : 0 < n -> off + n <= nlen f -> pread f (Z.of_N off) (Z.of_N n) = Ok (firstn (N.to_nat n) (skipn (N.to_nat off) f)).
Proof.
  intros P L. unfold pread, zlen, nlen in *. destruct (Z.ltb_spec (Z.of_N off) 0); [lia|]. destruct (Z.leb_spec (Z.of_N n) 0); [lia|].
  destruct (Z.leb_spec (Z.of_N off + Z.of_N n) (Z.of_nat (length f))); [|lia]. rewrite !Z_N_nat, !N2Z.id || rewrite <- !Z_N_nat, !N2Z.id. reflexivity.
Qed.
Lemma pread_short f off n : 0 < n -> nlen f < off + n -> pread f (Z.of_N off) (Z.of_N n) = Err EOF.
Proof.
  intros P L. unfold pread, zlen, nlen in *. destruct (Z.ltb_spec (Z.of_N off) 0); [lia|]. destruct (Z.leb_spec (Z.of_N n) 0); [lia|].
  destruct (Z.leb_spec (Z.of_N off + Z.of_N n) (Z.of_nat (length f))); [lia|reflexivity].
Qed.

Section L.
  Variables (fs : files) (path content : bytes).
  Hypothesis E : fs path = Some content.
  Lemma load_whole : doc_load fs path 0 0 = Ok (MkDoc path 0 (nlen content mod 2 ^ 32) content).
  Proof. unfold doc_load. rewrite E. reflexivity. Qed.
  Lemma load_range start end_ : start < end_ -> end_ < 2 ^ 32 -> end_ <= nlen content ->
    doc_load fs path start end_ = Ok (MkDoc path start end_ (between content start end_)).
  Proof.
    intros L H C. unfold doc_load. rewrite E. destruct (N.eqb_spec end_ 0); [lia|]. rewrite andb_false_r. rewrite sub32_up by lia. rewrite pread_ok by lia. reflexivity.
  Qed.
  Lemma load_short start end_ : start < end_ -> end_ < 2 ^ 32 -> nlen content < end_ -> doc_load fs path start end_ = Err EOther.
  Proof.
    intros L H C. unfold doc_load. rewrite E. destruct (N.eqb_spec end_ 0); [lia|]. rewrite andb_false_r. rewrite sub32_up by lia. rewrite pread_short by lia. reflexivity.
  Qed.
  Lemma load_empty start : 0 < start -> start < 2 ^ 32 -> doc_load fs path start start = Ok (MkDoc path start start []).
  Proof.
    intros L H. unfold doc_load. rewrite E. destruct (N.eqb_spec start 0); [lia|]. cbn [andb]. rewrite sub32_up by lia. rewrite N.sub_diag.
    unfold pread. destruct (Z.ltb_spec (Z.of_N start) 0); [lia|reflexivity].
  Qed.
  Lemma load_backwards start end_ : end_ < start -> start < 2 ^ 32 -> nlen content < end_ + 2 ^ 32 -> doc_load fs path start end_ = Err EOther.
  Proof.
    intros L H C. unfold doc_load. rewrite E. destruct (N.eqb_spec start 0); [lia|]. cbn [andb]. rewrite sub32_down by lia. change (2 ^ 32) with 4294967296 in *. rewrite pread_short by lia. reflexivity.
  Qed.
End L.

Lemma between_all content : between content 0 (nlen content) = content.
Proof. unfold between, nlen. rewrite N.sub_0_r. cbn [N.to_nat skipn]. rewrite Nat2N.id. apply firstn_all. Qed.
(** A document for a whole file, with its length modulo 2^32. *)
Theorem load_file fs path dat : fs path = Some dat ->
  exists d, doc_load fs path 0 (nlen dat mod 2 ^ 32) = Ok d /\
    (d_dat d = dat <-> nlen dat < 2 ^ 32 \/ nlen dat mod 2 ^ 32 = 0) /\
    (nlen dat < 2 ^ 32 -> d = MkDoc path 0 (nlen dat) dat) /\
    (nlen dat mod 2 ^ 32 <> 0 -> nlen (d_dat d) = nlen dat mod 2 ^ 32).
Proof.
  intros E. change (2 ^ 32) with 4294967296. pose proof (N.mod_lt (nlen dat) 4294967296 ltac:(lia)) as Lm. pose proof (N.mod_le (nlen dat) 4294967296 ltac:(lia)) as Le.
  destruct (N.eq_dec (nlen dat mod 4294967296) 0) as [Z|Z].
  - rewrite Z. exists (MkDoc path 0 (nlen dat mod 4294967296) dat). split; [exact (load_whole fs path dat E)|]. cbn [d_dat]. split; [split; auto|]. split; [|congruence].
    intros L. rewrite N.mod_small by exact L. reflexivity.
  - exists (MkDoc path 0 (nlen dat mod 4294967296) (between dat 0 (nlen dat mod 4294967296))).
    split; [apply (load_range fs path dat E); [clear -Z; lia|exact Lm|exact Le]|]. cbn [d_dat].
    assert (Ln : nlen (between dat 0 (nlen dat mod 4294967296)) = nlen dat mod 4294967296).
    { unfold between. rewrite N.sub_0_r. cbn [N.to_nat skipn]. unfold nlen in *. rewrite firstn_length. clear -Le. lia. }
    split; [|split; [|intros _; exact Ln]].
    + split; [|intros [L|L]; [|congruence]].
      * intros Eq. left. rewrite Eq in Ln. rewrite Ln. exact Lm.
      * rewrite N.mod_small by exact L. apply between_all.
    + intros L. rewrite N.mod_small by exact L. rewrite between_all. reflexivity.
Qed.
