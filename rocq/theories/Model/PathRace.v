(** fnames.go:71-105 called by several goroutines at a time. Indexer.Add (indexer.go:236-253)
    takes no lock, nor does addPath. A step is one access to the shared slice s.d, to an element
    of the array behind it, or to a map; accesses are sequentially consistent, and a slice or
    string is stored at once, which is kinder than Go's memory model. Kinder too: Go may end the
    process when one map is written while it is used by another goroutine; here it does not. *)
From Verif Require Import Model.Base Model.Path Model.Fnames.
Local Open Scope N_scope.

(** fnames.go:28-32; children: nil, or one of the maps ever made *)
Record cell := MkCell { c_parent : N; c_name : bytes; c_map : option nat }.
Definition zero_cell : cell := MkCell 0 [] None.
(** The arrays ever allocated, s.d being the first [s_len] elements of array [s_ptr] (the length of
    a list in [s_heap] is the capacity), and the maps ever made. *)
Record pset := MkPset { s_heap : list (list cell); s_ptr : nat; s_len : nat; s_maps : list smap }.
Definition live (s : pset) : list cell := firstn (s_len s) (nth (s_ptr s) (s_heap s) []).
(** The path set when nobody is changing it. *)
Definition cell_fname (maps : list smap) (c : cell) : fname :=
  MkFname (c_parent c) (c_name c) (match c_map c with None => [] | Some k => nth k maps [] end).
Definition paths_of (s : pset) : fnames := map (cell_fname (s_maps s)) (live s).
(** fnames.go:39-43 *)
Definition new_pset : pset := MkPset [repeat zero_cell 128] 0 1 [].

Inductive adding :=
| QPart (parent : N) (parts : list bytes)                     (* fnames.go:89-91: m = s.d[parent].children *)
| QMake (parent : N) (p : bytes) (r : list bytes)             (* 92-95 *)
| QFind (parent : N) (k : nat) (p : bytes) (r : list bytes)   (* 96-97 *)
| QLen (parent : N) (k : nat) (p : bytes) (r : list bytes)    (* 98 *)
| QSet (parent : N) (k : nat) (child : N) (p : bytes) (r : list bytes)   (* 99 *)
| QLoad (parent child : N) (p : bytes) (r : list bytes)       (* 100: the slice append is called with *)
| QPut (parent child : N) (p : bytes) (r : list bytes) (ptr len : nat)   (* 100: the element, in place or in a new array *)
| QHead (child : N) (r : list bytes) (ptr len : nat)          (* 100: s.d = *)
| QDone (id : N)
| QPanic.

Section Race.
  (** The capacity append gives when it has to allocate: at least one more. *)
  Variable grow : nat -> nat.
  Definition path_step (s : pset) (c : adding) : pset * adding :=
    match c with
    | QPart parent [] => (s, QDone parent)
    | QPart parent (p :: r) =>
        match nth_error (live s) (N.to_nat parent) with
        | None => (s, QPanic)
        | Some nd => (s, match c_map nd with None => QMake parent p r | Some k => QFind parent k p r end)
        end
    | QMake parent p r =>
        match nth_error (live s) (N.to_nat parent) with
        | None => (s, QPanic)
        | Some nd =>
            let k := length (s_maps s) in
            let arr := nth (s_ptr s) (s_heap s) [] in
            (MkPset (upd (s_ptr s) (upd (N.to_nat parent) (MkCell (c_parent nd) (c_name nd) (Some k)) arr) (s_heap s)) (s_ptr s) (s_len s) (s_maps s ++ [[]]),
             QFind parent k p r)
        end
    | QFind parent k p r =>
        let child := sget p (nth k (s_maps s) []) in
        (s, if child =? 0 then QLen parent k p r else QPart child r)
    | QLen parent k p r => (s, QSet parent k (u32 (N.of_nat (s_len s))) p r)
    | QSet parent k child p r =>
        (MkPset (s_heap s) (s_ptr s) (s_len s) (upd k (sset p child (nth k (s_maps s) [])) (s_maps s)), QLoad parent child p r)
    | QLoad parent child p r => (s, QPut parent child p r (s_ptr s) (s_len s))
    | QPut parent child p r ptr len =>
        let arr := nth ptr (s_heap s) [] in
        let new := MkCell parent p None in
        if (len <? length arr)%nat
        then (MkPset (upd ptr (upd len new arr) (s_heap s)) (s_ptr s) (s_len s) (s_maps s), QHead child r ptr (S len))
        else (MkPset (s_heap s ++ [firstn len arr ++ new :: repeat zero_cell (grow len)]) (s_ptr s) (s_len s) (s_maps s),
              QHead child r (length (s_heap s)) (S len))
    | QHead child r ptr len => (MkPset (s_heap s) ptr len (s_maps s), QPart child r)
    | QDone id => (s, QDone id)
    | QPanic => (s, QPanic)
    end.
  (** Goroutine [i] of those at [cs] makes the next step; the schedule says which. *)
  Fixpoint path_race (sched : list nat) (s : pset) (cs : list adding) : pset * list adding :=
    match sched with
    | [] => (s, cs)
    | i :: r => match nth_error cs i with
                | Some c => let '(s', c') := path_step s c in path_race r s' (upd i c' cs)
                | None => path_race r s cs
                end
    end.
End Race.
(** fnames.go:71-83: what comes before the loop touches nothing that is shared. *)
Definition begin_add (cwd path : bytes) : adding := QPart 0 (path_parts (path_abs cwd path)).
