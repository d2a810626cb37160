(** cmd/dupenron/main.go:31-35, 49-70: dupenron from its command line on. *)
From Coq Require Import String QArith.
From Verif Require Import Model.Base Model.Utf8 Model.Config Model.Session Model.Crash Model.Float Model.Flags Model.Verbs Model.Output Model.Csv Model.Enron Model.EnronMain Spec.Str.
Local Open Scope N_scope.
Local Open Scope list_scope.

(** main.go:31-35; -pprof is read and not used. *)
Definition enron_flags : flagset := [(bs "n", KInt); (bs "s", KInt); (bs "o", KBool); (bs "r", KString); (bs "pprof", KString)].
Record enron_opts := MkEnron { eo_n : Z; eo_s : Z; eo_print : bool; eo_root : bytes }.
(** A string flag with a default other than the empty string. *)
Definition get_string_or (name d : bytes) (sets : list (bytes * fvalue)) : bytes :=
  match last_set name sets (VString d) with VString s => s | _ => d end.
(** main.go:50: flag.Parse; the options and flag.Args(). *)
Definition enron_args (args : list bytes) : taken (enron_opts * list bytes) :=
  take enron_flags args (fun sets rest =>
    (MkEnron (get_int (bs "n") 16 sets) (get_int (bs "s") 10 sets) (get_bool (bs "o") sets) (get_string_or (bs "r") (bs "dupi.idx") sets), rest)).

(** main.go:127-130: what indexEnron prints for records, [rcds] of them before these. (The
    digits are those of numbers below 2^32.) *)
Fixpoint count_lines {A} (rcds : N) (l : list A) : bytes :=
  match l with
  | [] => []
  | _ :: l => (if (rcds + 1) mod 10000 =? 0 then print_dec (rcds + 1) ++ bs " rcds" ++ [10] else []) ++ count_lines (rcds + 1) l
  end.
Definition enron_counts (file : bytes -> option bytes) (rest : list bytes) : bytes :=
  match rest with
  | [] => []
  | fname :: _ => match file fname with None => [] | Some t => count_lines 0 (fst (csv_records t)) end
  end.

(** A run of dupenron: what it prints on the standard output, the index it leaves (root and
    files; the lock file is not among them), and how it ends. [agent]: agent.Listen succeeds
    (main.go:55-59). [there]: the paths at which there is something. No other process has the
    lock, and making the directory fails only where there is something. Runs in which a
    worker panics (with -n 0) are not among these. *)
Inductive enron_run (u : unicode) (cwd : bytes) (file : bytes -> option bytes) (there : bytes -> bool) (agent : bool) (args : list bytes) :
    bytes -> option (bytes * files) -> ending -> Prop :=
  | run_exit st : enron_args args = Exit st -> enron_run u cwd file there agent args [] None (Status st)
  | run_print o rest out e : enron_args args = Take (o, rest) -> eo_print o = true -> o_main file (eo_n o) rest = (out, e) ->
      enron_run u cwd file there agent args out None e
  | run_agent o rest : enron_args args = Take (o, rest) -> eo_print o = false -> agent = false ->
      enron_run u cwd file there agent args [] None (Status 1)
  | run_config o rest e : enron_args args = Take (o, rest) -> eo_print o = false -> agent = true ->
      new_config cwd (eo_root o) (eo_n o) (eo_s o) = Err e -> enron_run u cwd file there agent args [] None (Status 1)
  | run_negative o rest c : enron_args args = Take (o, rest) -> eo_print o = false -> agent = true ->
      new_config cwd (eo_root o) (eo_n o) (eo_s o) = Ok c -> (cf_numshards c < 0)%Z -> enron_run u cwd file there agent args [] None Panics
  | run_there o rest c : enron_args args = Take (o, rest) -> eo_print o = false -> agent = true ->
      new_config cwd (eo_root o) (eo_n o) (eo_s o) = Ok c -> (0 <= cf_numshards c)%Z -> there (cf_root c) = true ->
      enron_run u cwd file there agent args [] None (Status 1)
  | run_index o rest c fs e : enron_args args = Take (o, rest) -> eo_print o = false -> agent = true ->
      new_config cwd (eo_root o) (eo_n o) (eo_s o) = Ok c -> (0 <= cf_numshards c)%Z -> there (cf_root c) = false ->
      enron_main u cwd c file rest fs e -> enron_run u cwd file there agent args (enron_counts file rest) (Some (cf_root c, fs)) e.
