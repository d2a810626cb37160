(** encoding/binary as used by dupi (Go 1.17, go.mod:3). *)
From Verif Require Import Model.Base.
Local Open Scope N_scope.

(** binary.MaxVarintLen64 *)
Definition max_varint_len64 : nat := 10.

(** binary.PutUvarint (used in internal/shard/poster.go:93, fnames.go:160 [writeUvarint32]):
      for x >= 0x80 { buf[i] = byte(x) | 0x80; x >>= 7; i++ }; buf[i] = byte(x)
    The buffer has MaxVarintLen64 bytes; [fuel] counts them. *)
Fixpoint put_uvarint_aux (fuel : nat) (x : N) : bytes :=
  match fuel with
  | O => []          (* not reached for x < 2^64: see Varint proofs *)
  | S k => if 128 <=? x
           then N.lor (u8 x) 128 :: put_uvarint_aux k (N.shiftr x 7)
           else [u8 x]
  end.
Definition put_uvarint (x : N) : bytes := put_uvarint_aux max_varint_len64 x.

(** binary.PutVarint: zig-zag
      ux := uint64(x) << 1; if x < 0 { ux = ^ux } *)
Definition zigzag (z : Z) : N :=
  let ux := u64 (N.shiftl (u64_of_i64 z) 1) in
  if (z <? 0)%Z then N.lxor ux 18446744073709551615 else ux.
Definition put_varint (z : Z) : bytes := put_uvarint (zigzag z).

(** binary.Varint's decoding step:
      x := int64(ux >> 1); if ux&1 != 0 { x = ^x } *)
Definition unzigzag (ux : N) : Z :=
  let x := i64_of_u64 (N.shiftr ux 1) in
  if N.land ux 1 =? 0 then x else Z.lnot x.

(** binary.Uvarint(buf): (value, n); n = 0: buffer too small, n < 0: overflow. *)
Fixpoint uvarint_aux (buf : bytes) (i : nat) (x s : N) : N * Z :=
  match buf with
  | [] => (0, 0%Z)
  | b :: r =>
      if b <? 128 then
        if (max_varint_len64 <=? i)%nat || ((i =? max_varint_len64 - 1)%nat && (1 <? b))
        then (0, (- Z.of_nat (S i))%Z)
        else (N.lor x (u64 (N.shiftl b s)), Z.of_nat (S i))
      else uvarint_aux r (S i) (N.lor x (u64 (N.shiftl (N.land b 127) s))) (s + 7)
  end.
Definition uvarint (buf : bytes) : N * Z := uvarint_aux buf 0 0 0.

(** binary.Varint(buf) *)
Definition varint (buf : bytes) : Z * Z :=
  let '(ux, n) := uvarint buf in (unzigzag ux, n).

(** binary.ReadUvarint on a byte reader; the reader is the list of bytes not yet read.
    End of input before the last byte of the number is an error. [fuel] counts down
    MaxVarintLen64 loop iterations. *)
Fixpoint read_uvarint_aux (fuel : nat) (r : bytes) (x s : N) : result (N * bytes) :=
  match fuel with
  | O => Err EOther                       (* overflow *)
  | S k =>
      match r with
      | [] => Err EOF
      | b :: r' =>
          if b <? 128 then
            if (k =? 0)%nat && (1 <? b) then Err EOther
            else Ok (N.lor x (u64 (N.shiftl b s)), r')
          else read_uvarint_aux k r' (N.lor x (u64 (N.shiftl (N.land b 127) s))) (s + 7)
      end
  end.
Definition read_uvarint (r : bytes) : result (N * bytes) :=
  read_uvarint_aux max_varint_len64 r 0 0.

(** binary.ReadVarint *)
Definition read_varint (r : bytes) : result (Z * bytes) :=
  do! (ux, r') <- read_uvarint r; Ok (unzigzag ux, r').

(** binary.BigEndian.PutUint32 / Uint32 / PutUint64 / Uint64 *)
Definition put_be32 (x : N) : bytes :=
  [u8 (N.shiftr x 24); u8 (N.shiftr x 16); u8 (N.shiftr x 8); u8 x].
Definition be32 (b : bytes) : N :=
  match b with
  | b0 :: b1 :: b2 :: b3 :: _ =>
      N.lor b3 (N.lor (N.shiftl b2 8) (N.lor (N.shiftl b1 16) (N.shiftl b0 24)))
  | _ => 0   (* Go panics on a shorter slice; callers always pass 4 bytes *)
  end.
Definition put_be64 (x : N) : bytes :=
  [u8 (N.shiftr x 56); u8 (N.shiftr x 48); u8 (N.shiftr x 40); u8 (N.shiftr x 32);
   u8 (N.shiftr x 24); u8 (N.shiftr x 16); u8 (N.shiftr x 8); u8 x].
Definition be64 (b : bytes) : N :=
  match b with
  | b0 :: b1 :: b2 :: b3 :: b4 :: b5 :: b6 :: b7 :: _ =>
      N.lor b7 (N.lor (N.shiftl b6 8) (N.lor (N.shiftl b5 16) (N.lor (N.shiftl b4 24)
      (N.lor (N.shiftl b3 32) (N.lor (N.shiftl b2 40) (N.lor (N.shiftl b1 48) (N.shiftl b0 56)))))))
  | _ => 0   (* Go panics on a shorter slice; callers always pass 8 bytes *)
  end.
