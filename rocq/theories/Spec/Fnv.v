(** FNV-1, 32 bits: of a string and one more byte, the hash of the string times 16777619
    modulo 2^32, xor the byte; of the empty string 2166136261. *)
From Verif Require Import Model.Base.
Local Open Scope N_scope.

Inductive fnv1 : bytes -> N -> Prop :=
  | fnv1_empty : fnv1 [] 2166136261
  | fnv1_more s h c : fnv1 s h -> fnv1 (s ++ [c]) (N.lxor (h * 16777619 mod 4294967296) c).
