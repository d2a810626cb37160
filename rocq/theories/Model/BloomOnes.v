(** The rest of attic/bposts.go and attic/ibloom/fnv32.go: what is in a set. *)
From Verif Require Import Model.Base Model.Bloom.
Local Open Scope N_scope.

(** bposts.go:58-65 *)
Fixpoint is_zero (set : bytes) : bool :=
  match set with [] => true | b :: r => if negb (b =? 0) then false else is_zero r end.
(** bposts.go:76-80: [n] is 8 - j; 1<<j is a byte here. The ints i*8+j are nat. *)
Fixpoint byte_ones (n : nat) (b : N) (i j : nat) (dst : list nat) : list nat :=
  match n with
  | O => dst
  | S n => byte_ones n b i (S j) (if negb (N.land b (u8 (N.shiftl 1 (N.of_nat j))) =? 0) then dst ++ [(i * 8 + j)%nat] else dst)
  end.
(** bposts.go:71-83 *)
Fixpoint bp_list (set : bytes) (i : nat) (dst : list nat) : list nat :=
  match set with
  | [] => dst
  | b :: r => if b =? 0 then bp_list r (S i) dst else bp_list r (S i) (byte_ones 8 b i 0 dst)
  end.
(** fnv32.go:78-87; [n] is k - i *)
Fixpoint put_ones_from (f : fnv32) (hh : N) (n : nat) (i : N) (dst : list N) : result (list N) :=
  match n with
  | O => Ok dst
  | S n =>
      let hb := u32 (N.lxor hh (u32 (i + 97)) * fnv32_prime) in
      do! hb <- clamp hb (u32_of_int (fl_mbytes f));
      if (N.to_nat i <? length dst)%nat then put_ones_from f hh n (i + 1) (upd (N.to_nat i) hb dst) else Panic
  end.
Definition put_ones (f : fnv32) (dst : list N) (v : N) : result (list N) :=
  put_ones_from f (fnv32_hash v) (N.to_nat (u32_of_int (fl_k f))) 0 dst.
