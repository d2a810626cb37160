(** There are functions that sort as the code expects of sort.Slice. *)
From Coq Require Import Permutation Sorting.Sorted.
From Verif Require Import Model.Base Model.Shard Spec.Querying Proof.Tactics.
Local Open Scope N_scope.

Section Ins.
  Variable key : nat -> N.
  Fixpoint insert_slot (x : nat) (l : list nat) : list nat :=
    match l with [] => [x] | y :: r => if key x <=? key y then y :: insert_slot x r else x :: l end.
  Lemma insert_perm x l : Permutation (insert_slot x l) (x :: l).
  Proof. induction l as [|y l IH]; cbn [insert_slot]; [reflexivity|]. destruct (key x <=? key y); [|reflexivity]. rewrite IH. apply perm_swap. Qed.
  Notation desc := (StronglySorted (fun a b => key b <= key a)).
  Lemma insert_sorted x l : desc l -> desc (insert_slot x l).
  Proof.
    induction 1 as [|y l S IH F]; cbn [insert_slot]; [constructor; constructor|]. destruct (N.leb_spec (key x) (key y)) as [L|L].
    - constructor; [exact IH|]. eapply Permutation_Forall; [symmetry; apply insert_perm|]. constructor; assumption.
    - constructor; [constructor; assumption|]. constructor; [lia|]. eapply Forall_impl; [|exact F]. cbn beta. intros; lia.
  Qed.
  Fixpoint sort_slots (l : list nat) : list nat := match l with [] => [] | x :: r => insert_slot x (sort_slots r) end.
  Lemma sort_perm l : Permutation (sort_slots l) l.
  Proof. induction l as [|x l IH]; cbn [sort_slots]; [reflexivity|]. rewrite insert_perm, IH. reflexivity. Qed.
  Lemma sort_sorted l : desc (sort_slots l).
  Proof. induction l as [|x l IH]; cbn [sort_slots]; [constructor|]. apply insert_sorted, IH. Qed.
  Lemma sorted_nth l : desc l -> forall i j d, (i <= j < length l)%nat -> key (nth j l d) <= key (nth i l d).
  Proof.
    induction 1 as [|x l S IH F]; intros i j d L; cbn [length] in L; [lia|]. destruct i as [|i], j as [|j]; cbn [nth]; try lia; [|apply IH; lia].
    rewrite Forall_forall in F. apply F, nth_In. lia.
  Qed.
End Ins.
Theorem sorts_exists : exists sorted, sorts sorted.
Proof.
  exists (fun counts => sort_slots (fun s => nth s counts 0) (seq 0 num_slots)). intros counts _. split; [apply sort_perm|].
  intros i j L. apply (sorted_nth (fun s => nth s counts 0)); [apply sort_sorted|].
  rewrite (Permutation_length (sort_perm _ _)), seq_length. exact L.
Qed.
