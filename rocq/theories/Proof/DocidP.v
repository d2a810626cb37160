(** Every document number of an index leads to its document. *)
From Verif Require Import Model.Base Model.Utf8 Model.Token Model.Blotter Model.Post Model.Poster Model.Shatter Model.Shard Model.Dmd Model.Fnames Model.Conc Model.Config Model.Run Model.Index Model.Query Model.Session.
From Verif Require Import Spec.Text Spec.Fingerprint Spec.Configs Spec.Posting Spec.Postings Spec.Paths Spec.Reading Spec.Querying Spec.History.
From Verif Require Import Proof.Tactics Proof.VarintP Proof.TokenP Proof.BlotterP Proof.ShatterP Proof.IndexP2 Proof.DmdP Proof.FnamesP Proof.FnamesP2 Proof.PosterP Proof.ShardP Proof.ConcP Proof.ConcRun Proof.QueryP Proof.SessionP.
Local Open Scope N_scope.

Lemma docid_place u c k m n sorted : cfg_full c k m n -> sorts sorted ->
  forall ss dk, history u c ss dk -> docs_fit (all_docs ss) ->
  exists ix, open_index sorted dk = Ok ix /\ (forall d, 1 <= d <= nlen (all_docs ss) -> docid2doc ix d = Ok (place_of (all_docs ss) d)) /\
    (forall d, nlen (all_docs ss) < d -> docid2doc ix d = Err EOF).
Proof.
  intros F Hs ss dk Hi Fit. destruct F as [O Hn Hfl].
  destruct (words_total u (all_docs ss)) as [wss Ww].
  destruct (history_inv u c k m n O Hn Hfl ss dk Hi Fit wss Ww) as (fn & fs & D).
  destruct (open_index_ok u c k m n O Hn sorted Hs _ wss fn fs dk D Ww Fit) as (ix & Eo & _ & _ & Ed & Wx & Sx & _).
  exists ix. split; [exact Eo|]. split; [|intros d Hd; pose proof (recs_len _ _ _ (di_recs _ _ _ _ _ _ _ _ _ _ D)) as Lf; unfold docid2doc; rewrite Ed, dmd_lookup_beyond; [reflexivity|unfold nlen in *; lia]].
  intros d Hd. pose proof (di_recs _ _ _ _ _ _ _ _ _ _ D) as R. pose proof (di_wf _ _ _ _ _ _ _ _ _ _ D) as W.
  pose proof (df_ok _ Fit) as FO. clear D Hi Eo Ww Fit Hs O Hn Hfl. pose proof (recs_len _ _ _ R) as Lf. unfold nlen in Hd. remember (all_docs ss) as docs. clear Heqdocs ss.
  destruct (nth_ex docs (N.to_nat (d - 1))) as [[cwd x] Ex]; [lia|].
  destruct (nth_ex fs (N.to_nat (d - 1))) as [f Ef]; [lia|].
  assert (Rc : rec_of fn f (cwd, x)).
  { clear -Ex Ef R. revert Ex Ef. generalize (N.to_nat (d - 1)).
    induction R as [|a p l l' A F IH]; intros [|i] E1 E2; cbn [nth_error] in *; try discriminate; [|eauto].
    assert (a = f) as -> by congruence. assert (p = (cwd, x)) as -> by congruence. exact A. }
  assert (WF : Forall wf_fields fs).
  { clear -R W FO. change (2 ^ 32) with 4294967296 in *. induction R as [|a p l l' (A & B & C) F IH]; [constructor|].
    inversion FO as [|? ? (O1 & O2 & O3) FO']; subst. change (2 ^ 32) with 4294967296 in *. constructor; [|auto]. split; [|split].
    - pose proof (is_path_lt fn _ _ W C). pose proof (wf_size fn W). lia.
    - rewrite A. exact O2.
    - rewrite B. exact O3. }
  unfold docid2doc. rewrite Ed. replace d with (N.of_nat (S (N.to_nat (d - 1)))) at 1 by lia.
  rewrite (dmd_lookup_file fs _ f WF Ef). cbn [bind]. destruct Rc as (A & B & C). cbn [fst snd] in *.
  rewrite (fn_abs_skel (ix_fnames ix) fn) by exact Sx. rewrite (fn_abs_path fn _ _ W C), parts_show. cbn [bind].
  unfold place_of. rewrite Ex, A, B. reflexivity.
Qed.
