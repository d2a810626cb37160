(** attic/ibloom/fnv32.go and attic/bposts.go *)
From Verif Require Import Model.Base.
Local Open Scope N_scope.

(** fnv32.go:17-20; the fields are Go ints *)
Record fnv32 := MkFnv32 { fl_k : Z; fl_mbytes : Z }.
Definition u32_of_int (z : Z) : N := Z.to_N (z mod 4294967296).

(** fnv32.go:37-50 *)
Definition fnv32_prime : N := 16777619.
Definition fnv32_hash (hop : N) : N :=
  let hh := 1 in
  let hh := u32 (N.lxor hh (N.land hop 255) * fnv32_prime) in
  let hh := u32 (N.lxor hh (N.land (N.shiftr hop 8) 255) * fnv32_prime) in
  let hh := u32 (N.lxor hh (N.land (N.shiftr hop 16) 255) * fnv32_prime) in
  u32 (N.lxor hh (N.land (N.shiftr hop 24) 255) * fnv32_prime).

(** fnv32.go:89-92: % by zero panics *)
Definition clamp (h n : N) : result N :=
  let bits := u32 (n * 8) in
  if bits =? 0 then Panic else Ok (h mod bits).

(** fnv32.go:60-62: make panics when negative *)
Definition new_set (b : fnv32) : result bytes :=
  if (fl_mbytes b <? 0)%Z then Panic else Ok (repeat 0 (Z.to_nat (fl_mbytes b))).

(** fnv32.go:64-76; the closure's captured variable is threaded as a state. [n] is k - i. *)
Fixpoint ones_from {A} (b : fnv32) (hh : N) (fn : A -> N -> result (A * bool)) (n : nat) (i : N) (a : A) : result (A * bool) :=
  match n with
  | O => Ok (a, true)
  | S n =>
    let hb := u32 (N.lxor hh (u32 (i + 97)) * fnv32_prime) in
    do! hb <- clamp hb (u32_of_int (fl_mbytes b));
    do! (a, go) <- fn a hb;
    if (go : bool) then ones_from b hh fn n (i + 1) a else Ok (a, false)
  end.
Definition ones {A} (b : fnv32) (post : N) (fn : A -> N -> result (A * bool)) (a : A) : result (A * bool) :=
  ones_from b (fnv32_hash post) fn (N.to_nat (u32_of_int (fl_k b))) 0 a.

(** fnv32.go:94-99; the constant 1 is a byte in both closures *)
Definition has_fn (d : bytes) (i : N) : result (bytes * bool) :=
  match nth_error d (N.to_nat (i / 8)) with
  | None => Panic
  | Some x => Ok (d, negb (N.land x (u8 (N.shiftl 1 (i mod 8))) =? 0))
  end.
Definition has (b : fnv32) (d : bytes) (v : N) : result bool :=
  do! (_, r) <- ones b v has_fn d; Ok r.

(** fnv32.go:101-107 *)
Definition add_fn (d : bytes) (i : N) : result (bytes * bool) :=
  match nth_error d (N.to_nat (i / 8)) with
  | None => Panic
  | Some x => Ok (upd (N.to_nat (i / 8)) (N.lor x (u8 (N.shiftl 1 (i mod 8)))) d, true)
  end.
Definition add (b : fnv32) (d : bytes) (v : N) : result bytes :=
  do! (d, _) <- ones b v add_fn d; Ok d.

(** bposts.go:21-27 without Root and Bloomer (a parameter of the operations) *)
Record bposts := MkBposts { bp_total : N; bp_post : N; bp_set : bytes }.
(** bposts.go:38-42 on a fresh value, and 29-36 *)
Definition bp_init (b : fnv32) : result bposts := do! d <- new_set b; Ok (MkBposts 0 0 d).
Definition bp_ones (b : fnv32) : result bposts := do! d <- new_set b; Ok (MkBposts 0 0 (map (fun _ => 255) d)).
(** bposts.go:44-56: the other set's elements are indexed, panic when there are fewer *)
Fixpoint zip_set (f : N -> N -> N) (d o : bytes) : result bytes :=
  match d, o with
  | [], _ => Ok []
  | _ :: _, [] => Panic
  | x :: d, y :: o => do! r <- zip_set f d o; Ok (f x y :: r)
  end.
Definition intersect (t : bposts) (o : bytes) : result bposts :=
  do! d <- zip_set N.land (bp_set t) o; Ok (MkBposts (bp_total t) (bp_post t) d).
Definition union (t : bposts) (o : bytes) : result bposts :=
  do! d <- zip_set N.lor (bp_set t) o; Ok (MkBposts (bp_total t) (bp_post t) d).
(** bposts.go:67-69 *)
Definition has_post (b : fnv32) (t : bposts) (post : N) : result bool := has b (bp_set t) post.
(** bposts.go:85-93 *)
Definition add_post (b : fnv32) (t : bposts) (post : N) : result bposts :=
  if (bp_post t =? post) && negb (bp_total t =? 0) then Ok t
  else do! d <- add b (bp_set t) post; Ok (MkBposts (u32 (bp_total t + 1)) post d).

Inductive bop := BAdd (post : N) | BUnion (o : bytes) | BIntersect (o : bytes).
Definition bstep (b : fnv32) (t : bposts) (o : bop) : result bposts :=
  match o with BAdd p => add_post b t p | BUnion s => union t s | BIntersect s => intersect t s end.
Fixpoint bops (b : fnv32) (t : bposts) (l : list bop) : result bposts :=
  match l with [] => Ok t | o :: r => do! t <- bstep b t o; bops b t r end.
