(** The order in which documents are added and their division into sessions. *)
From Coq Require Import Sorting.Permutation QArith.
From Verif Require Import Model.Base Model.Utf8 Model.Token Model.Blotter Model.Shard Model.Conc Model.Config Model.Index Model.Query Model.Session Model.Float Model.Stats.
From Verif Require Import Spec.Text Spec.Fingerprint Spec.Configs Spec.Paths Spec.Reading Spec.Querying Spec.History.
From Verif Require Import Proof.Tactics Proof.SessionP Proof.StatsP4.
From Coq Require Import Lia.
Local Open Scope N_scope.
Local Open Scope list_scope.

Definition place (p : bytes * doc) : bytes * N * N := (show_abs (spec_abs (fst p) (d_path (snd p))), d_start (snd p), d_end (snd p)).
Definition having (H : bytes -> N) (k m n : nat) (docs : list (bytes * doc)) (wss : list (list bytes)) (q : N) : list (bytes * N * N) :=
  map (fun x => place (fst x)) (filter (fun x => has_blot H k m n (snd x) q) (combine docs wss)).
Lemma carriers_having H k m n q docs : forall pre wss, List.length docs = List.length wss ->
  map (place_of (pre ++ docs)) (carriers H k m n (nlen pre) wss q) = having H k m n docs wss q.
Proof.
  induction docs as [|p docs IH]; intros pre [|ws wss] L; try discriminate L; [reflexivity|]. cbn [carriers]. unfold having. cbn [combine filter snd].
  assert (R : map (place_of (pre ++ p :: docs)) (carriers H k m n (nlen pre + 1) wss q) = having H k m n docs wss q).
  { specialize (IH (pre ++ [p]) wss). rewrite <- app_assoc in IH. cbn [app] in IH. rewrite <- IH by (injection L as L; exact L). f_equal. f_equal. unfold nlen. rewrite app_length. cbn [List.length]. lia. }
  rewrite map_app, R. destruct (has_blot H k m n ws q); cbn [map app fst]; [|reflexivity]. f_equal.
  unfold place_of. replace (N.to_nat (nlen pre + 1 - 1)) with (List.length pre + 0)%nat by (unfold nlen; lia). rewrite nth_error_app2 by lia.
  replace (List.length pre + 0 - List.length pre)%nat with 0%nat by lia. cbn [nth_error]. destruct p as [cwd x]. reflexivity.
Qed.
Lemma filter_perm {A} (f : A -> bool) l l' : Permutation l l' -> Permutation (filter f l) (filter f l').
Proof.
  induction 1 as [|x l l' P IH|x y l|l l' l'' P IH P' IH']; [constructor| | |exact (Permutation_trans IH IH')].
  - cbn [filter]. destruct (f x); [constructor|]; exact IH.
  - cbn [filter]. destruct (f x), (f y); try apply Permutation_refl. apply perm_swap.
Qed.
Lemma words_perm word docs docs' : Permutation docs docs' -> forall wss, words_of word docs wss ->
  exists wss', words_of word docs' wss' /\ Permutation (combine docs wss) (combine docs' wss').
Proof.
  unfold words_of. induction 1 as [|x l l' P IH|x y l|l l' l'' P IH P' IH']; intros wss W.
  - inversion W; subst. exists []. split; constructor.
  - inversion W as [|? w ? ws Hw Wt]; subst. destruct (IH ws Wt) as (ws' & W' & P'). exists (w :: ws'). split; [constructor; assumption|]. cbn [combine]. constructor. exact P'.
  - inversion W as [|? w ? ws Hw Wt]; subst. inversion Wt as [|? w2 ? ws2 Hw2 Wt2]; subst. exists (w2 :: w :: ws2). split; [constructor; [exact Hw2|constructor; [exact Hw|exact Wt2]]|]. cbn [combine]. apply perm_swap.
  - destruct (IH wss W) as (w1 & W1 & P1). destruct (IH' w1 W1) as (w2 & W2 & P2). exists w2. split; [exact W2|exact (Permutation_trans P1 P2)].
Qed.
Lemma having_perm H k m n docs wss docs' wss' q : Permutation (combine docs wss) (combine docs' wss') -> Permutation (having H k m n docs wss q) (having H k m n docs' wss' q).
Proof. intros P. unfold having. apply Permutation_map, filter_perm, P. Qed.
Lemma words_len word docs wss : words_of word docs wss -> List.length docs = List.length wss.
Proof. intros W. induction W; cbn [List.length]; congruence. Qed.
Lemma carriers_places H k m n q word docs wss : words_of word docs wss -> map (place_of docs) (carriers H k m n 0 wss q) = having H k m n docs wss q.
Proof. intros W. exact (carriers_having H k m n q docs [] wss (words_len _ _ _ W)). Qed.
Lemma carriers_count H k m n q word docs wss : words_of word docs wss -> List.length (carriers H k m n 0 wss q) = List.length (having H k m n docs wss q).
Proof. intros W. rewrite <- (carriers_places H k m n q word docs wss W), map_length. reflexivity. Qed.
Lemma pairs_sum H k m n word docs : forall wss, words_of word docs wss ->
  pairs H k m n wss = fold_right (fun x s => nlen (nodup N.eq_dec (map (fun b => b mod (N.of_nat n * 65536)) (spec_blots H k m (snd x)))) + s) 0 (combine docs wss).
Proof. unfold words_of. induction docs as [|p docs IH]; intros wss W; inversion W; subst; [reflexivity|]. cbn [pairs combine fold_right snd]. rewrite IH by assumption. reflexivity. Qed.
Lemma sum_perm {A} (f : A -> N) l l' : Permutation l l' -> fold_right (fun x s => f x + s) 0 l = fold_right (fun x s => f x + s) 0 l'.
Proof. induction 1; cbn [fold_right]; lia. Qed.
Lemma pairs_perm H k m n word docs wss docs' wss' : words_of word docs wss -> words_of word docs' wss' -> Permutation (combine docs wss) (combine docs' wss') ->
  pairs H k m n wss = pairs H k m n wss'.
Proof. intros W W' P. rewrite (pairs_sum H k m n word docs wss W), (pairs_sum H k m n word docs' wss' W'). exact (sum_perm (fun x => nlen (nodup N.eq_dec (map (fun b => b mod (N.of_nat n * 65536)) (spec_blots H k m (snd x))))) _ _ P). Qed.
Lemma tree_perm docs docs' : Permutation docs docs' -> nlen (tree_nodes docs) = nlen (tree_nodes docs').
Proof.
  intros P. unfold tree_nodes, nlen. f_equal. apply Permutation_length, NoDup_Permutation; try apply NoDup_nodup.
  intros x. rewrite !nodup_In. cbn [In]. rewrite !in_concat. split; (intros [E|(l & I & X)]; [left; exact E|right; exists l; split; [|exact X]]; rewrite in_map_iff in *; destruct I as (p & <- & I); exists p; split; [reflexivity|]).
  - exact (Permutation_in _ P I).
  - exact (Permutation_in _ (Permutation_sym P) I).
Qed.
Lemma fit_perm docs docs' : Permutation docs docs' -> docs_fit docs -> docs_fit docs'.
Proof.
  intros P [A B C]. constructor.
  - rewrite Forall_forall in *. intros x I. apply A, (Permutation_in _ (Permutation_sym P) I).
  - unfold nlen in *. rewrite <- (Permutation_length P). exact B.
  - assert (E : path_room docs = path_room docs'); [|rewrite <- E; exact C]. clear -P.
    assert (S : forall l, path_room l = fold_right (fun p s => nlen (show_abs (spec_abs (fst p) (d_path (snd p)))) + s) 0 l) by (induction l as [|p l IH]; [reflexivity|]; cbn [path_room fold_right]; rewrite IH; reflexivity).
    rewrite !S. exact (sum_perm (fun p => nlen (show_abs (spec_abs (fst p) (d_path (snd p))))) _ _ P).
Qed.
(** The floating-point statistics depend on the counts. *)
Lemma sigma_counts fuse ix ix' : index_stats ix = index_stats ix' \/ (st_posts (index_stats ix) = st_posts (index_stats ix') /\ st_blots (index_stats ix) = st_blots (index_stats ix')) ->
  map si_counts (ix_shards ix) = map si_counts (ix_shards ix') -> blot_mean ix = blot_mean ix' /\ blot_sigma fuse ix = blot_sigma fuse ix'.
Proof.
  intros E C. assert (P : st_posts (index_stats ix) = st_posts (index_stats ix') /\ st_blots (index_stats ix) = st_blots (index_stats ix')) by (destruct E as [-> |E]; [split; reflexivity|exact E]).
  destruct P as [P1 P2]. assert (M : blot_mean ix = blot_mean ix') by (unfold blot_mean; rewrite P1, P2; reflexivity). split; [exact M|].
  unfold blot_sigma. rewrite P2, M. f_equal. f_equal. generalize (blot_mean ix') (Fin 0). intros avg. clear -C. revert C. generalize (ix_shards ix) (ix_shards ix').
  induction l as [|x l IH]; intros [|x' l'] C z; try discriminate C; [reflexivity|]. cbn [map] in C. injection C as C1 C2. cbn [fold_left]. unfold sos_diffs at 2 4. rewrite C1. apply IH, C2.
Qed.
