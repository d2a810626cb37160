(** Arithmetic mean and variance of a list of numbers, exactly. *)
From Coq Require Import QArith List.
From Verif Require Import Model.Base Spec.History.
Import ListNotations.
Local Open Scope Q_scope.

Definition qsum (l : list Q) : Q := fold_right Qplus 0 l.
Definition average (l : list Q) : Q := qsum l / inject_Z (Z.of_nat (length l)).
Definition variance (l : list Q) : Q := average (map (fun x => (x - average l) * (x - average l)) l).
Definition count (n : N) : Q := inject_Z (Z.of_N n).

(** The numbers of documents of all the blots there are. *)
Definition per_blot (H : bytes -> N) (k m n : nat) (wss : list (list bytes)) : list Q :=
  map (fun q => count (nlen (carriers H k m n 0 wss (N.of_nat q)))) (seq 0 (N.to_nat (N.of_nat n * 65536))).

Example average_example : average [1; 2; 6] == 3.
Proof. reflexivity. Qed.
Example variance_example : variance [1; 2; 6] == 14 # 3.
Proof. reflexivity. Qed.
