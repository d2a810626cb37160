(** What the verbs of cmd/dupi take from their arguments. *)
From Coq Require Import String QArith.
From Verif Require Import Model.Base Model.Float Model.Flags Model.Options Spec.Str.
Local Open Scope N_scope.
Local Open Scope list_scope.

(** The verb runs, or the process ends with a status. *)
Inductive taken (A : Type) := Take (a : A) | Exit (status : N).
Arguments Take {A} _.
Arguments Exit {A} _.
Definition take {A} (fs : flagset) (args : list bytes) (f : list (bytes * fvalue) -> list bytes -> A) : taken A :=
  match parse_args fs args with FDone sets rest => Take (f sets rest) | FExit st => Exit st end.
(** index.go:45-50, 82, 95: the options and the paths; -v only makes log lines. *)
Definition index_args (args : list bytes) : taken (index_opts * list bytes) :=
  take index_flags args (fun sets rest =>
    (MkOpts (get_bool (bs "a") sets) (get_int (bs "n") 4 sets) (get_int (bs "s") 4 sets) (get_int (bs "t") 10 sets) (get_string (bs "c") sets), rest)).
(** extract.go:43-45, 55: -json, -sigma, -b; the arguments are not used. *)
Definition extract_args (args : list bytes) : taken (bool * float * bool) :=
  take extract_flags args (fun sets _ => (get_bool (bs "json") sets, get_float (bs "sigma") (Fin 2) sets, get_bool (bs "b") sets)).
(** blot.go:36, 45, 52 *)
Definition blot_args (args : list bytes) : taken (bool * list bytes) :=
  take blot_flags args (fun sets rest => (get_bool (bs "offsets") sets, rest)).
(** unblot.go:33, 42, 50 *)
Definition unblot_args (args : list bytes) : taken (bool * list bytes) :=
  take unblot_flags args (fun sets rest => (get_bool (bs "all") sets, rest)).
(** inspect.go:39-40, 53: -json and -files *)
Definition inspect_args (args : list bytes) : taken (bool * bool) :=
  take inspect_flags args (fun sets _ => (get_bool (bs "json") sets, get_bool (bs "files") sets)).
(** like.go:44, 51: the files are all the arguments, not those that Parse leaves. *)
Definition like_args (args : list bytes) : taken (list bytes) :=
  take like_flags args (fun _ _ => args).
