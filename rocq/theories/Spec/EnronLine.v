(** The command line of dupenron, and what it prints while it indexes. *)
From Coq Require Import String.
From Verif Require Import Model.Base Spec.Str Spec.Cmdline Spec.Printed.
Local Open Scope N_scope.
Local Open Scope list_scope.

Definition enron_has := has_flags [("n", Integer); ("s", Integer); ("o", NoValue); ("r", Text); ("pprof", Text)]%string.
(** The arguments set the options to these values, and are right; [rest] follows them. *)
Definition enron_line (args : list bytes) (n s : Z) (o : bool) (r : bytes) (rest : list bytes) : Prop :=
  exists os, reads_as enron_has args os rest /\ valid (fun _ _ => False) enron_has os /\
    set_to integer "n" 16%Z os n /\ set_to integer "s" 10%Z os s /\ set_to truth "o" false os o /\ set_to eq "r" (bs "dupi.idx") os r.

(** For [n] records: "10000 rcds", "20000 rcds" and so on. *)
Definition counts (n : N) (t : bytes) : Prop :=
  exists ls, Forall2 (fun j l => exists s, numeral decimal s (10000 * N.of_nat j) /\ l = s ++ bs " rcds" ++ [10]) (seq 1 (N.to_nat (n / 10000))) ls /\ t = concat ls.
