(** C60: the documents that dupenron adds. *)
From Coq Require Import String.
From Verif Require Import Model.Base Model.Index Model.Cmd Model.Enron Spec.Str Proof.EnronP.
Local Open Scope N_scope.
Local Open Scope list_scope.

(** Whatever the file is, no document has a range of the length of its text, so that reading
    one back gives another text than was indexed or fails. *)
Theorem C60_range_refuted fname rcds d fs : rcds_size rcds + 2 < 4294967296 -> In d (enron_docs fname 0 rcds) ->
  (d_end d + 4294967296 - d_start d) mod 4294967296 <> nlen (d_dat d) /\
  forall d', doc_load fs fname (d_start d) (d_end d) = Ok d' -> d_dat d' <> d_dat d.
Proof.
  intros B Hi. split; [exact (proj2 (proj2 (enron_range fname rcds 0 d B Hi)))|exact (enron_never_loads fname rcds d fs B Hi)].
Qed.
(** One document per record, of the message after its header. *)
Theorem C60_bodies_partial fname rcds :
  Forall2 (fun r d => d_path d = fname /\ body (snd r) (d_dat d)) rcds (enron_docs fname 0 rcds).
Proof. exact (enron_bodies fname rcds 0). Qed.
Print Assumptions C60_range_refuted.
Print Assumptions C60_bodies_partial.

Definition ex_msg : bytes := bs "To: me" ++ [10; 10] ++ bs "hi all" ++ [10].
Example C60_example :
  enron_docs (bs "x") 0 [(bs "a", ex_msg); (bs "bc", bs "no header")] =
    [MkDoc (bs "x") 9 7 (bs "hi all" ++ [10]); MkDoc (bs "x") 10 16 (bs "no header")] /\
  rcds_size [(bs "a", ex_msg); (bs "bc", bs "no header")] + 2 < 4294967296.
Proof. split; reflexivity. Qed.
