(** Conventions shared by the whole model: Go integers, results, files. *)
From Coq Require Export List Arith NArith ZArith Bool.
Export ListNotations.
Local Open Scope N_scope.

(** Go's fixed-width unsigned arithmetic: the value of an expression of type
    uint8/16/32/64 is the mathematical value modulo 2^8/16/32/64. *)
Definition u8 (x : N) : N := x mod 256.
Definition u16 (x : N) : N := x mod 65536.
Definition u32 (x : N) : N := x mod 4294967296.
Definition u64 (x : N) : N := x mod 18446744073709551616.

(** uint32 subtraction x - y (both below 2^32). *)
Definition sub32 (x y : N) : N := u32 (x + 4294967296 - y).
(** uint32 addition. *)
Definition add32 (x y : N) : N := u32 (x + y).

(** Conversions int64(x) of a uint64 and uint64(z) of an int64. *)
Definition i64_of_u64 (x : N) : Z :=
  if x <? 9223372036854775808 then Z.of_N x else (Z.of_N x - 18446744073709551616)%Z.
Definition u64_of_i64 (z : Z) : N := Z.to_N (z mod 18446744073709551616).

(** Byte strings. *)
Notation bytes := (list N).

(** Errors: [io.EOF] is distinguished because the code compares with it. *)
Inductive err := EOF | EOther.

(** Outcome of a Go call: a value, a returned error, a run-time panic, or [Loop]: the
    loop did not end within the fuel the model gave it (theorems exclude it). *)
Inductive result (A : Type) : Type :=
| Ok (a : A)
| Err (e : err)
| Panic
| Loop.
Arguments Ok {A} a.
Arguments Err {A} e.
Arguments Panic {A}.
Arguments Loop {A}.

Definition bind {A B} (r : result A) (k : A -> result B) : result B :=
  match r with Ok a => k a | Err e => Err e | Panic => Panic | Loop => Loop end.
Notation "'do!' x <- r ; k" := (bind r (fun x => k))
  (at level 200, x pattern, r at level 100, k at level 200, right associativity).

(** Slices d[i:j] as lists (only used within bounds). *)
Definition sub {A} (i j : nat) (l : list A) : list A := firstn (j - i) (skipn i l).

(** l[i] = x *)
Fixpoint upd {A} (i : nat) (x : A) (l : list A) : list A :=
  match l with
  | [] => []
  | y :: r => match i with O => x :: r | S i' => y :: upd i' x r end
  end.

Definition zlen {A} (l : list A) : Z := Z.of_nat (length l).
Definition nlen {A} (l : list A) : N := N.of_nat (length l).

(** os.File.ReadAt(buf[:n], off): all n bytes, or an error (io.EOF) when the file
    ends first; a negative offset is another error. *)
Definition pread (f : bytes) (off n : Z) : result bytes :=
  if (off <? 0)%Z then Err EOther
  else if (n <=? 0)%Z then Ok []
  else if (off + n <=? zlen f)%Z
       then Ok (firstn (Z.to_nat n) (skipn (Z.to_nat off) f))
       else Err EOF.

(** os.File.WriteAt / Write at offset [off]: overwrite, growing the file if the data
    reaches beyond its end (a gap is filled with zeros). *)
Definition pwrite (f : bytes) (off : nat) (d : bytes) : bytes :=
  firstn off f ++ repeat 0 (off - length f) ++ d ++ skipn (off + length d) f.

(** The number of slots of a shard: [1 << 16] (internal/shard/indexer.go:31). *)
Definition num_slots : nat := Z.to_nat 65536.
