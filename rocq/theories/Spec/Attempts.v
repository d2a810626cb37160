(** Records that are appended to a file in batches, when an attempt may stop in the middle
    and the whole batch is appended again by the next one. *)
From Verif Require Import Model.Base Model.Dmd.
Local Open Scope N_scope.

(** Four bytes, the most significant one first. *)
Definition four (v : N) : bytes := [v / 2 ^ 24 mod 2 ^ 8; v / 2 ^ 16 mod 2 ^ 8; v / 2 ^ 8 mod 2 ^ 8; v mod 2 ^ 8].
Definition records (ds : list fields) : bytes :=
  concat (map (fun d => four (f_fid d) ++ four (f_start d) ++ four (f_end d)) ds).

(** What attempts that stopped after so many bytes have left in the file. *)
Definition leftovers (ds : list fields) (tries : list nat) : bytes :=
  concat (map (fun n => firstn n (records ds)) tries).
(** A batch: its records, and after how many bytes each of the attempts before the
    successful one stopped. *)
Definition batch : Type := list fields * list nat.
Definition batch_bytes (b : batch) : bytes := leftovers (fst b) (snd b) ++ records (fst b).

(** The documents for which Add returned a number, and these numbers. *)
Fixpoint accepted (ds : list fields) (ids : list (option N)) : list fields :=
  match ds, ids with
  | d :: r, Some _ :: is => d :: accepted r is
  | _ :: r, None :: is => accepted r is
  | _, _ => []
  end.
Fixpoint numbers (ids : list (option N)) : list N :=
  match ids with [] => [] | Some i :: r => i :: numbers r | None :: r => numbers r end.
