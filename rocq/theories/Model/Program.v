(** The command dupi as a whole (cmd/dupi/dupi.go:91-112 and the verbs): from the arguments
    and the files that are there to the exit status, what is on standard output, and the files
    afterwards. Not here: the agent of dupi.go:94-98; runs that panic or do
    not end; index when making the indexer fails halfway; lock files; errors of the disk. *)
From Coq Require Import String QArith Permutation.
From Verif Require Import Model.Base Model.Utf8 Model.Path Model.Float Model.Token Model.Blotter Model.Config Model.Index Model.Query
  Model.Session Model.Crash Model.Root Model.Args Model.Flags Model.Verbs Model.Options Model.Walk Model.Extract Model.Stats Model.Cmd Model.Hex
  Model.Output Model.Inspect Spec.Str.
Local Open Scope N_scope.
Local Open Scope list_scope.

(** The working directory, DUPIROOT, the home directory; what lstat and a walk find under a
    path (relative to the working directory, or absolute); which names exist, and the files
    of index directories, by cleaned absolute path. *)
Record world := MkWorld {
  at_cwd : bytes; at_env : bytes; at_home : option bytes;
  at_tree : bytes -> option tree; at_there : bytes -> bool; at_dirs : bytes -> Crash.files }.
(** The content of a file, read through its path. *)
Definition at_file (w : world) (p : bytes) : option bytes :=
  match at_tree w p with Some (Leaf (Reads dat)) => Some dat | _ => None end.
(** An index directory that exists with these files. *)
Definition put_index (w : world) (root : bytes) (fs : Crash.files) : world :=
  MkWorld (at_cwd w) (at_env w) (at_home w) (at_tree w)
    (fun p => eq_bytes p root || at_there w p) (fun p => if eq_bytes p root then fs else at_dirs w p).

Section Program.
  Variables (u : unicode) (sorted : list N -> list nat) (grow : nat -> nat) (fuse : bool) (wild : float -> Z) (fixed : bool).

  (** like.go:51-55: for each file what is printed, until one fails; the documents are
      printed in any order. *)
  Inductive like_prints (w : world) (ix : index) : list bytes -> bytes -> N -> Prop :=
  | like_done : like_prints w ix [] [] 0
  | like_next f r dat fuel keys keys' out st :
      at_file w f = Some dat -> like_file u (at_file w) grow ix fuel f dat = Ok keys -> Permutation keys keys' ->
      like_prints w ix r out st -> like_prints w ix (f :: r) (like_text f keys' ++ out) st
  | like_missing f r : at_file w f = None -> like_prints w ix (f :: r) [] 1
  | like_fails f r dat fuel e : at_file w f = Some dat -> like_file u (at_file w) grow ix fuel f dat = Err e ->
      like_prints w ix (f :: r) [] 1.
  (** unblot.go:50-83, the texts in any order (they are the keys of a map) *)
  Inductive unblot_prints (w : world) (ix : index) (all : bool) : list bytes -> bytes -> N -> Prop :=
  | unblot_done : unblot_prints w ix all [] [] 0
  | unblot_next a r blot fuel gs gs' out st :
      scan_hex a = Ok blot -> unblot u (at_file w) grow ix fuel all blot = Ok gs -> Permutation gs gs' ->
      unblot_prints w ix all r out st -> unblot_prints w ix all (a :: r) (concat (map unblot_text gs') ++ out) st
  | unblot_bad a r e : scan_hex a = Err e -> unblot_prints w ix all (a :: r) [] 1
  | unblot_fails a r blot fuel e : scan_hex a = Ok blot -> unblot u (at_file w) grow ix fuel all blot = Err e ->
      unblot_prints w ix all (a :: r) [] 1.
  (** blot.go:52-57: files that cannot be read are only logged *)
  Inductive blot_prints (w : world) (ix : index) (offsets : bool) : list bytes -> bytes -> Prop :=
  | blot_done : blot_prints w ix offsets [] []
  | blot_next f r dat ls out : at_file w f = Some dat -> blot_file u (ix_cfg ix) offsets f dat = Ok ls ->
      blot_prints w ix offsets r out -> blot_prints w ix offsets (f :: r) (concat (map blot_line ls) ++ out)
  | blot_missing f r out : at_file w f = None -> blot_prints w ix offsets r out -> blot_prints w ix offsets (f :: r) out.

  (** What the arguments after a verb that only reads make of an opened index. *)
  Inductive answers (w : world) : bytes -> list bytes -> index -> bytes -> N -> Prop :=
  | answers_extract largs json sigma only ix fuel k calls out :
      extract_args largs = Take (json, sigma, only) ->
      extract_sigma fuse grow wild ix json sigma fuel k calls = Ok out ->
      answers w (bs "extract") largs ix (extract_text json only out) 0
  | answers_like largs files ix out st :
      like_args largs = Take files -> like_prints w ix files out st -> answers w (bs "like") largs ix out st
  | answers_unblot largs all args ix out st :
      Verbs.unblot_args largs = Take (all, args) -> unblot_prints w ix all args out st -> answers w (bs "unblot") largs ix out st
  | answers_blot largs offsets files ix out :
      blot_args largs = Take (offsets, files) -> blot_prints w ix offsets files out -> answers w (bs "blot") largs ix out 0
  | answers_inspect largs json files ix :
      inspect_args largs = Take (json, files) ->
      answers w (bs "inspect") largs ix (fst (inspect fuse json ix)) (snd (inspect fuse json ix)).
  (** The status with which wrong options or a call for help end a verb (flag.ExitOnError). *)
  Definition stops (v : bytes) (largs : list bytes) (st : N) : Prop :=
    v = bs "index" /\ index_args largs = Exit st \/ v = bs "extract" /\ extract_args largs = Exit st \/
    v = bs "blot" /\ blot_args largs = Exit st \/ v = bs "unblot" /\ Verbs.unblot_args largs = Exit st \/
    v = bs "like" /\ like_args largs = Exit st \/ v = bs "inspect" /\ inspect_args largs = Exit st.
  (** ... and when they do not. *)
  Definition takes (v : bytes) (largs : list bytes) : Prop :=
    v = bs "extract" /\ (exists a, extract_args largs = Take a) \/ v = bs "blot" /\ (exists a, blot_args largs = Take a) \/
    v = bs "unblot" /\ (exists a, Verbs.unblot_args largs = Take a) \/ v = bs "like" /\ (exists a, like_args largs = Take a) \/
    v = bs "inspect" /\ (exists a, inspect_args largs = Take a).

  (** When index.go:58-79 fails before anything is written: with -a, the configuration cannot
      be read (indexer.go:86-90); without, the options make none, or the directory is there
      (indexer.go:55). *)
  Definition refuses (w : world) (root : bytes) (o : index_opts) : Prop :=
    if op_add o then exists e, Json.read_config (w_cfg (at_dirs w (path_abs (at_cwd w) root))) = Err e
    else (exists e, opt_config (at_file w) (at_cwd w) root o = Err e) \/
         exists c, opt_config (at_file w) (at_cwd w) root o = Ok c /\ (0 <= cf_numshards c)%Z /\ at_there w (cf_root c) = true.

  (** dupi.go:91-112; log.Fatal exits with status 1. *)
  Inductive dupi (w : world) (args : list bytes) : N -> bytes -> world -> Prop :=
  | dupi_usage : main args (at_env w) (at_home w) = Usage -> dupi w args 1 [] w
  | dupi_stops v largs root st : main args (at_env w) (at_home w) = RunVerb v largs root -> stops v largs st ->
      dupi w args st [] w
  | dupi_no_index v largs root e : main args (at_env w) (at_home w) = RunVerb v largs root -> takes v largs ->
      open_index_at sorted (at_dirs w) (at_cwd w) root = Err e -> dupi w args 1 [] w
  | dupi_answers v largs root ix out st : main args (at_env w) (at_home w) = RunVerb v largs root ->
      open_index_at sorted (at_dirs w) (at_cwd w) root = Ok ix -> answers w v largs ix out st -> dupi w args st out w
  (** index.go:81-104 *)
  | dupi_refuses largs root o paths : main args (at_env w) (at_home w) = RunVerb (bs "index") largs root ->
      index_args largs = Take (o, paths) -> refuses w root o -> dupi w args 1 [] w
  | dupi_index largs root o paths x ws err docs dk :
      main args (at_env w) (at_home w) = RunVerb (bs "index") largs root ->
      index_args largs = Take (o, paths) ->
      get_indexer (at_dirs w) (at_there w) (at_file w) (at_cwd w) root o = Ok (x, ws) ->
      do_paths (fun _ => true) fixed (at_tree w) paths (false, []) = (err, docs) ->
      session u (Ok (x, ws)) (map (pair (at_cwd w)) docs) dk ->
      dupi w args (if err : bool then 1 else 0) [] (put_index w (cf_root (x_cfg x)) (files_of dk)).
End Program.
