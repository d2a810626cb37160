(** dmd/adder.go:53-97 called by several goroutines at a time. Indexer.Add
    (indexer.go:236-253) takes no lock, nor does Adder. A step is one access to the shared
    variables t.buf and t.flushed or to an element of the array behind t.buf; accesses are
    sequentially consistent, which is kinder than Go's memory model. Kinder too: opening the
    file and taking the length for the loop, loading an element and writing it to the file,
    [t.flushed += uint32(len(t.buf))] and [t.buf = t.buf[:0]] are one step each. *)
From Verif Require Import Model.Base Model.Dmd.
Local Open Scope N_scope.

(** The arrays ever allocated; t.buf is the first [m_len] elements of array [m_ptr]; the
    length of a list in [m_heap] is the capacity. *)
Record mem := MkMem { m_heap : list (list fields); m_ptr : nat; m_len : nat; m_flushed : N; m_rate : N; m_file : option bytes }.

Inductive pc :=
| PEnter (d : fields)                          (* adder.go:54-55 *)
| PFlush (d : fields) (k i : nat)              (* adder.go:87-93: k records in all, i the next *)
| PCount (d : fields)                          (* adder.go:94 *)
| PCut (d : fields)                            (* adder.go:95 *)
| PLen (d : fields)                            (* adder.go:61 *)
| PLoad (d : fields) (n : nat)                 (* adder.go:62: the slice append is called with *)
| PPut (d : fields) (n p l : nat)              (* the element, in place or in a new array *)
| PHead (n p l : nat)                          (* t.buf = *)
| PSum (n : nat)                               (* adder.go:63 *)
| PDone (id : N)
| PPanic.

Section Race.
  (** The capacity append gives when it has to allocate: at least one more. *)
  Variable grow : nat -> nat.

  Definition set_file (f : option bytes) (m : mem) : mem := MkMem (m_heap m) (m_ptr m) (m_len m) (m_flushed m) (m_rate m) f.

  Definition add_step (m : mem) (c : pc) : mem * pc :=
    match c with
    | PEnter d => if u32 (N.of_nat (m_len m)) =? m_rate m
                  then (set_file (file_append (m_file m) []) m, PFlush d (m_len m) 0)
                  else (m, PLen d)
    | PFlush d k i =>
        if (i <? k)%nat
        then if (i <? m_len m)%nat
             then (set_file (file_append (m_file m) (enc_fields (nth i (nth (m_ptr m) (m_heap m) []) zero_fields))) m, PFlush d k (S i))
             else (m, PPanic)
        else (m, PCount d)
    | PCount d => (MkMem (m_heap m) (m_ptr m) (m_len m) (add32 (m_flushed m) (u32 (N.of_nat (m_len m)))) (m_rate m) (m_file m), PCut d)
    | PCut d => (MkMem (m_heap m) (m_ptr m) 0 (m_flushed m) (m_rate m) (m_file m), PLen d)
    | PLen d => (m, PLoad d (m_len m))
    | PLoad d n => (m, PPut d n (m_ptr m) (m_len m))
    | PPut d n p l =>
        let arr := nth p (m_heap m) [] in
        if (l <? length arr)%nat
        then (MkMem (upd p (upd l d arr) (m_heap m)) (m_ptr m) (m_len m) (m_flushed m) (m_rate m) (m_file m), PHead n p (S l))
        else (MkMem (m_heap m ++ [firstn l arr ++ d :: repeat zero_fields (grow l)]) (m_ptr m) (m_len m) (m_flushed m) (m_rate m) (m_file m),
              PHead n (length (m_heap m)) (S l))
    | PHead n p l => (MkMem (m_heap m) p l (m_flushed m) (m_rate m) (m_file m), PSum n)
    | PSum n => (m, PDone (add32 (u32 (N.of_nat n)) (m_flushed m)))
    | PDone id => (m, PDone id)
    | PPanic => (m, PPanic)
    end.

  (** Goroutine [i] of those at [cs] makes the next step; the schedule says which. *)
  Fixpoint race (sched : list nat) (m : mem) (cs : list pc) : mem * list pc :=
    match sched with
    | [] => (m, cs)
    | i :: r => match nth_error cs i with
                | Some c => let '(m', c') := add_step m c in race r m' (upd i c' cs)
                | None => race r m cs
                end
    end.

  (** adder.go:70-75, 78-97, when no other call is running. *)
  Definition adder_of (m : mem) : adder * option bytes :=
    (MkAdder (m_flushed m) (m_rate m) (firstn (m_len m) (nth (m_ptr m) (m_heap m) [])), m_file m).
End Race.
