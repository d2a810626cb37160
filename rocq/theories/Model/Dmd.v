(** Document meta data: dmd/fields.go, dmd/adder.go, dmd/t.go *)
From Verif Require Import Model.Base Model.Varint.
Local Open Scope N_scope.

(** dmd/fields.go:17-20 *)
Record fields := MkFields { f_fid : N; f_start : N; f_end : N }.

(** dmd/t.go:30 *)
Definition rcd_size : N := 12.

(** binary.Write(f, binary.BigEndian, fields) at dmd/adder.go:89: the three uint32 in
    declaration order. *)
Definition enc_fields (d : fields) : bytes :=
  put_be32 (f_fid d) ++ put_be32 (f_start d) ++ put_be32 (f_end d).

(** dmd/adder.go:24-29; the path is left out, the file it names is passed separately
    as [option bytes] ([None]: does not exist). *)
Record adder := MkAdder { a_flushed : N; a_rate : N; a_buf : list fields }.

Definition zero_fields : fields := MkFields 0 0 0.

(** dmd/adder.go:31-51. [make([]fields, 1, fr)] panics for fr < 1,
    [make([]fields, 0, fr)] for fr < 0. Errors of os.Stat other than "not exist" are
    not modelled. *)
Definition new_adder (file : option bytes) (fr : Z) : result adder :=
  let ufr := Z.to_N (fr mod 4294967296) in
  match file with
  | None => if (fr <? 1)%Z then Panic else Ok (MkAdder 0 ufr [zero_fields])
  | Some f =>
      let flushed := u32 (nlen f / rcd_size) in
      if flushed =? 0
      then if (fr <? 1)%Z then Panic else Ok (MkAdder flushed ufr [zero_fields])
      else if (fr <? 0)%Z then Panic else Ok (MkAdder flushed ufr [])
  end.

(** dmd/adder.go:77-97: open for append (creating the file), write the buffered records
    one after another. The list of the writes is kept apart because a crash can happen
    between any two of them. I/O errors are not modelled here (see Model/Fault). *)
Definition flush_writes (a : adder) : list bytes := map enc_fields (a_buf a).
Definition file_append (file : option bytes) (w : bytes) : option bytes :=
  match file with None => Some w | Some f => Some (f ++ w) end.
Definition adder_flush (a : adder) (file : option bytes) : adder * option bytes :=
  (MkAdder (add32 (a_flushed a) (u32 (nlen (a_buf a)))) (a_rate a) [],
   file_append file (concat (flush_writes a))).

(** dmd/adder.go:53-64 *)
Definition adder_add (st : adder * option bytes) (d : fields) : (adder * option bytes) * N :=
  let '(a, file) := st in
  let '(a, file) := if u32 (nlen (a_buf a)) =? a_rate a then adder_flush a file else (a, file) in
  let n := u32 (nlen (a_buf a)) in
  ((MkAdder (a_flushed a) (a_rate a) (a_buf a ++ [d]), file), add32 n (a_flushed a)).

(** dmd/adder.go:66-68 *)
Definition adder_last (a : adder) : N :=
  sub32 (add32 (a_flushed a) (u32 (nlen (a_buf a)))) 1.

(** dmd/adder.go:70-75 *)
Definition adder_close (st : adder * option bytes) : option bytes :=
  let '(a, file) := st in
  match a_buf a with [] => file | _ => snd (adder_flush a file) end.

(** dmd/t.go:42-48 *)
Definition dmd_num_docs (f : bytes) : N := nlen f / rcd_size.

(** dmd/t.go:50-65. io.ReadFull reports io.EOF only when nothing at all could be read, and
    io.ErrUnexpectedEOF in the middle of a record. *)
Definition read_full (f : bytes) (off n : Z) : result bytes :=
  match pread f off n with
  | Err EOF => if (off <? zlen f)%Z then Err EOther else Err EOF
  | r => r
  end.
Definition dmd_lookup (f : bytes) (did : N) : result fields :=
  do! buf <- read_full f (Z.of_N did * 12) 12;
  Ok (MkFields (be32 (sub 0 4 buf)) (be32 (sub 4 8 buf)) (be32 (sub 8 12 buf))).

(** A whole session: NewAdder, Add for every document, Close; returns the ids given
    (as called by indexer.go:[IndexerFromConfig/openFromConfig], [doc2Id], [Close]). *)
Fixpoint adder_adds (st : adder * option bytes) (ds : list fields)
  : (adder * option bytes) * list N :=
  match ds with
  | [] => (st, [])
  | d :: r => let '(st1, i) := adder_add st d in
              let '(st2, is) := adder_adds st1 r in (st2, i :: is)
  end.
Definition dmd_session (file : option bytes) (fr : Z) (ds : list fields)
  : result (option bytes * list N) :=
  do! a <- new_adder file fr;
  let '(st, ids) := adder_adds (a, file) ds in
  Ok (adder_close st, ids).
Fixpoint dmd_sessions (file : option bytes) (ss : list (Z * list fields))
  : result (option bytes * list N) :=
  match ss with
  | [] => Ok (file, [])
  | (fr, ds) :: r =>
      do! (file1, ids1) <- dmd_session file fr ds;
      do! (file2, ids2) <- dmd_sessions file1 r;
      Ok (file2, ids1 ++ ids2)
  end.
