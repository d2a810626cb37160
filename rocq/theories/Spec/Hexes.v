(** Hexadecimal numbers. *)
From Verif Require Import Model.Base Spec.Text.
Local Open Scope N_scope.

(** "0123456789abcdef" and "0123456789ABCDEF" *)
Definition lower_digits : bytes := [48; 49; 50; 51; 52; 53; 54; 55; 56; 57; 97; 98; 99; 100; 101; 102].
Definition upper_digits : bytes := [48; 49; 50; 51; 52; 53; 54; 55; 56; 57; 65; 66; 67; 68; 69; 70].
(** The byte [c] is the digit with value [d]. *)
Definition digit (c d : N) : Prop := nth_error lower_digits (N.to_nat d) = Some c \/ nth_error upper_digits (N.to_nat d) = Some c.
(** The digits [s] spell the number [v]. *)
Inductive spells : bytes -> N -> Prop :=
  | spells_one c d : digit c d -> spells [c] d
  | spells_more s v c d : spells s v -> digit c d -> spells (s ++ [c]) (16 * v + d).
(** The white space of Unicode, apart from the new line. *)
Definition space (r : N) : Prop :=
  In r [9; 11; 12; 13; 32; 133; 160; 5760; 8192; 8193; 8194; 8195; 8196; 8197; 8198; 8199; 8200; 8201; 8202; 8232; 8233; 8239; 8287; 12288].
Definition spaces (s : bytes) : Prop := exists rs, is_text s rs /\ Forall space rs.
