(** Document numbers beyond uint32. *)
From Verif Require Import Model.Base Model.Varint Model.Dmd Proof.Tactics Proof.VarintP Proof.DmdP.
Local Open Scope N_scope.

Lemma u32_add a b : u32 (u32 a + u32 b) = u32 (a + b).
Proof. unfold u32. symmetry. apply N.add_mod. discriminate. Qed.
(** As [dmd_inv], for any number of documents. *)
Definition wrap_inv (all : list fields) (st : adder * option bytes) : Prop :=
  exists done, all = done ++ a_buf (fst st) /\
    file_bytes (snd st) = render_dmd done /\ a_flushed (fst st) = u32 (nlen done).
Lemma nlen_split {A} (a b : list A) : nlen (a ++ b) = nlen a + nlen b.
Proof. unfold nlen. rewrite app_length. lia. Qed.

Lemma wrap_flush all a file : wrap_inv all (a, file) -> wrap_inv all (adder_flush a file).
Proof.
  intros (done & Hall & Hf & Hfl). cbn [fst snd] in *. exists all. cbn [adder_flush fst snd a_buf a_flushed].
  split; [rewrite app_nil_r; reflexivity|]. rewrite Hall at 1. split.
  - rewrite render_dmd_app, <- Hf. unfold file_append. destruct file; reflexivity.
  - rewrite Hfl. unfold add32. rewrite u32_add, Hall, nlen_split. reflexivity.
Qed.
Lemma wrap_add all st d : wrap_inv all st ->
  wrap_inv (all ++ [d]) (fst (adder_add st d)) /\ snd (adder_add st d) = u32 (nlen all).
Proof.
  destruct st as [a file]. intros Hi. unfold adder_add.
  assert (H1 : wrap_inv all (if u32 (nlen (a_buf a)) =? a_rate a then adder_flush a file else (a, file))).
  { destruct (_ =? _); [apply wrap_flush|]; assumption. }
  destruct (if u32 (nlen (a_buf a)) =? a_rate a then adder_flush a file else (a, file)) as [a1 file1].
  destruct H1 as (done & Hall & Hf & Hfl). cbn [fst snd a_buf a_flushed] in *. split.
  - exists done. cbn [fst snd a_buf a_flushed]. rewrite Hall, app_assoc. auto.
  - rewrite Hfl. unfold add32. rewrite N.add_comm, u32_add, Hall, nlen_split. reflexivity.
Qed.
Lemma wrap_adds ds : forall all st, wrap_inv all st ->
  wrap_inv (all ++ ds) (fst (adder_adds st ds)) /\
  snd (adder_adds st ds) = map (fun i => u32 (N.of_nat i)) (seq (length all) (length ds)).
Proof.
  induction ds as [|d r IH]; intros all st Hi; cbn [adder_adds].
  - rewrite app_nil_r. auto.
  - destruct (wrap_add all st d Hi) as [H1 H2]. destruct (adder_add st d) as [st1 i]. cbn [fst snd] in *.
    destruct (IH (all ++ [d]) st1 H1) as [H3 H4]. destruct (adder_adds st1 r) as [st2 is]. cbn [fst snd] in *.
    rewrite <- app_assoc in H3. split; [exact H3|]. rewrite H2, H4, app_length. cbn [length seq map]. unfold nlen. do 3 f_equal. lia.
Qed.
Lemma wrap_close all st : wrap_inv all st -> file_bytes (adder_close st) = render_dmd all.
Proof.
  destruct st as [a file]. intros Hi. unfold adder_close. destruct (a_buf a) eqn:E.
  - destruct Hi as (done & Hall & Hf & Hfl). cbn [fst snd] in *. rewrite E, app_nil_r in Hall. congruence.
  - apply wrap_flush in Hi. destruct Hi as (done & Hall & Hf & _). cbn [adder_flush fst snd a_buf] in *. rewrite app_nil_r in Hall. congruence.
Qed.
Lemma wrap_session fr ds : (1 <= fr)%Z ->
  dmd_session None fr ds = Ok (dmd_file ds, map (fun i => u32 (N.of_nat i)) (seq 1 (length ds))).
Proof.
  intros Hfr. unfold dmd_session. destruct (new_adder_fresh fr Hfr) as (a & -> & (done & A & B & C)). cbn [bind].
  assert (W : wrap_inv [zero_fields] (a, None)).
  { exists done. split; [exact A|]. split; [exact B|]. rewrite C. assert (L : nlen done <= 1) by (apply (f_equal (@length _)) in A; rewrite app_length in A; cbn [length] in A; unfold nlen; lia).
    unfold u32. rewrite N.mod_small; [reflexivity|]. lia. }
  destruct (wrap_adds ds _ _ W) as [H1 H2]. destruct (adder_adds (a, None) ds) as [st ids]. cbn [fst snd] in *.
  apply wrap_close in H1. apply file_bytes_some in H1; [|discriminate]. rewrite H1, H2. reflexivity.
Qed.
