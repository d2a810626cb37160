(** C59: what Add does with the document that it is given. *)
From Coq Require Import String.
From Verif Require Import Model.Base Model.Index Model.Alias Spec.Paths Spec.History Spec.Snapshots Spec.Str Proof.AliasP.
Local Open Scope N_scope.
Local Open Scope list_scope.

(** If the caller leaves the slices alone that it has added, documents are read as they were
    when Add was called, with any number of workers and in any interleaving. *)
Theorem C59_untouched_partial h prog n s did d :
  untouched prog -> asteps (astart h prog n) s -> In (did, d) (al_seen s) ->
  1 <= did /\ nth_error (snapshots h prog) (N.to_nat (did - 1)) = Some (Some d).
Proof. exact (seen_snapshots h prog n s did d). Qed.
Print Assumptions C59_untouched_partial.

(** For any content of the slice, any place in it and any other byte there: a caller that
    uses its slice again, after Add has returned, can have the new byte indexed instead. *)
Theorem C59_reused_slice_refuted d i x y n : nth_error d i = Some x -> y <> x -> (0 < n)%nat ->
  exists s d', asteps (astart [d] [CAdd 0; CSet 0 i y] n) s /\ al_todo s = [] /\ al_readers s = repeat RIdle n /\
    al_seen s = [(1, d')] /\ snapshots [d] [CAdd 0; CSet 0 i y] = [Some d] /\ d' <> d.
Proof. exact (reused_slice d i x y n). Qed.
(** It may also find part of the old and part of the new text, which is neither of the texts
    that were ever meant. *)
Theorem C59_torn_refuted : exists h prog s d', asteps (astart h prog 1) s /\ al_todo s = [] /\ al_seen s = [(1, d'); (2, bs "dog")] /\
  snapshots h prog = [Some (bs "cat"); Some (bs "dog")] /\ d' = bs "cog".
Proof. exact torn. Qed.
Print Assumptions C59_reused_slice_refuted.
Print Assumptions C59_torn_refuted.

(** Add also empties the path of the document. Adding the same document again files it under
    the working directory. *)
Theorem C59_path_is_taken_refuted cwd d docs :
  place_of (docs ++ [(cwd, d); (cwd, doc_after_add d)]) (N.of_nat (List.length docs) + 2) = (show_abs (spec_abs cwd []), d_start d, d_end d) /\
  place_of (docs ++ [(cwd, d); (cwd, doc_after_add d)]) (N.of_nat (List.length docs) + 1) = (show_abs (spec_abs cwd (d_path d)), d_start d, d_end d).
Proof. exact (place_again cwd d docs). Qed.
Print Assumptions C59_path_is_taken_refuted.

Example C59_example :
  untouched [CSet 0 1 7; CAdd 0; CSet 1 0 8; CAdd 1] /\
  snapshots [[1; 2]; [3]] [CSet 0 1 7; CAdd 0; CSet 1 0 8; CAdd 1] = [Some [1; 7]; Some [8]] /\
  (show_abs (spec_abs (bs "/home") []), show_abs (spec_abs (bs "/home") (bs "a.txt"))) = (bs "/home", bs "/home/a.txt").
Proof. split; [|split; reflexivity]. repeat split; cbn; intros i x H; repeat destruct H as [H|H]; try discriminate; try contradiction. Qed.
