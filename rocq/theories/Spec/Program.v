(** The use of the command dupi from the outside: command lines, the files they name, and what
    an index has been given by a story of commands. *)
From Coq Require Import String QArith Qabs.
From Verif Require Import Model.Base Model.Utf8 Model.Float Model.Flags Model.Index Model.Json Model.Walk Model.Output Model.Program Spec.Mean Spec.Paths Spec.Tree Spec.Text Spec.Fingerprint Spec.History Spec.Stretch Spec.Hexes Spec.Printed Spec.Str Spec.Cmdline Spec.Inspected.
Local Open Scope N_scope.
Local Open Scope list_scope.

(** "dupi -r R verb rest...", or -r=R, or with DUPIROOT=R. The root is not empty and, after
    -r, not the name of a verb (C53). *)
Definition verb_names : list bytes := map bs ["index"; "extract"; "blot"; "unblot"; "inspect"; "like"]%string.
Definition command (w : world) (R : bytes) (verb : string) (rest args : list bytes) : Prop :=
  R <> [] /\ (~ In R verb_names /\ args = bs "-r" :: R :: bs verb :: rest \/ args = (bs "-r=" ++ R) :: bs verb :: rest \/
    args = bs verb :: rest /\ at_env w = R).
(** The directory that is meant. *)
Definition root_of (w : world) (R : bytes) : bytes := show_abs (spec_abs (at_cwd w) R).

(** The visible files under a directory, in the order of the entries, each directory when its
    name comes. *)
Inductive listing : tree -> list (list bytes * leaf) -> Prop :=
| list_leaf o : listing (Leaf o) [([], o)]
| list_dir es l : entries es l -> listing (Dir (Some es)) l
with entries : list (bytes * tree) -> list (list bytes * leaf) -> Prop :=
| entries_nil : entries [] []
| entries_hidden n t es l : dot_name n -> entries es l -> entries ((n, t) :: es) l
| entries_next n t es l l' : ~ dot_name n -> listing t l -> entries es l' ->
    entries ((n, t) :: es) (map (fun x => (n :: fst x, snd x)) l ++ l').
(** The documents for the visible files under the arguments of index, whole files. *)
Definition found (w : world) (p : bytes) (docs : list (bytes * doc)) : Prop :=
  exists t l, at_tree w p = Some t /\ listing t l /\
    Forall2 (fun x d => fst d = at_cwd w /\ exists dat, snd x = Reads dat /\ doc_for (at_cwd w) p (fst x) dat (snd d)) l docs.
Definition walked (w : world) (paths : list bytes) (docs : list (bytes * doc)) : Prop :=
  exists ds, Forall2 (found w) paths ds /\ docs = concat ds.
(** Nothing is wrong with the arguments: they are not called like hidden files, they exist,
    and everything under them that is not hidden can be read. *)
Definition walkable (w : world) (paths : list bytes) : Prop :=
  rooted (at_cwd w) /\ (forall p t, at_tree w p = Some t -> good_tree t) /\
  forall p, In p paths -> ~ dotted p /\ exists t, at_tree w p = Some t /\ listable t /\ all_read t.

(** The arguments of index for a new index with [n] shards, and for adding to one. *)
Definition asks_new (iargs : list bytes) (n : nat) (paths : list bytes) : Prop :=
  exists os s, reads_as index_has iargs os paths /\ valid (fun _ _ => False) index_has os /\
    set_to truth "a" false os false /\ set_to integer "n" 4%Z os (Z.of_nat n) /\ set_to integer "s" 4%Z os s /\ (0 < s)%Z /\
    set_to integer "t" 10%Z os 10%Z /\ set_to eq "c" [] os [].
Definition asks_add (iargs : list bytes) (paths : list bytes) : Prop :=
  exists os, reads_as index_has iargs os paths /\ valid (fun _ _ => False) index_has os /\ set_to truth "a" false os true.

(** Nothing has changed but the index at [root], which is there. *)
Definition only_at (root : bytes) (w w' : world) : Prop :=
  at_cwd w' = at_cwd w /\ at_env w' = at_env w /\ at_home w' = at_home w /\ (forall p, at_tree w' p = at_tree w p) /\
  at_there w' root = true /\ (forall p, p <> root -> at_dirs w' p = at_dirs w p /\ at_there w' p = at_there w p).

Section Story.
  Variable run : world -> list bytes -> N -> bytes -> world -> Prop.
  (** An index at [root] with [n] shards that was given [docs]: created by one command, then
      commands that add to it. Between the commands everything may change but the files of
      the index: the working directory, the environment, the documents. *)
  Inductive story (root : bytes) (n : nat) : list (bytes * doc) -> world -> Prop :=
  | story_new w args R iargs paths docs st out w' :
      command w R "index" iargs args -> asks_new iargs n paths -> (0 < n)%nat -> N.of_nat n < 65536 ->
      root_of w R = root -> at_there w root = false -> text_path root ->
      walkable w paths -> walked w paths docs -> docs_fit docs ->
      run w args st out w' -> story root n docs w'
  | story_add docs w w1 args R iargs paths docs1 st out w2 :
      story root n docs w -> at_dirs w1 root = at_dirs w root ->
      command w1 R "index" iargs args -> asks_add iargs paths -> root_of w1 R = root ->
      walkable w1 paths -> walked w1 paths docs1 -> docs_fit (docs ++ docs1) ->
      run w1 args st out w2 -> story root n (docs ++ docs1) w2.
End Story.

(** The arguments of extract: -json or not, the number behind -sigma, -b or not. *)
Definition asks_extract (eargs : list bytes) (json : bool) (x : Q) (only : bool) : Prop :=
  exists os rest, reads_as extract_has eargs os rest /\ valid (fun v f => parse_float v = Some f) extract_has os /\
    set_to truth "json" false os json /\ set_to (fun v f => parse_float v = Some f) "sigma" (Fin 2) os (Fin x) /\ set_to truth "b" false os only.
(** [T] is the mean of the numbers [l] plus [x] times their standard deviation, but for
    rounding to an integer and a small relative error. *)
Definition threshold (l : list Q) (x : Q) (T : Z) : Prop :=
  (exists mean sigma, 0 <= mean /\ Qabs (mean - average l) <= 2 ^ (-51) * average l /\
    0 <= sigma /\ (1 - 2 ^ (-35)) * variance l <= sigma * sigma /\
    sigma * sigma <= (1 + 2 ^ (-35)) * (variance l + (2 ^ (-51) * average l) * (2 ^ (-51) * average l)) /\
    Qabs (inject_Z T - (mean + x * sigma)) <= (1 # 2) + 2 ^ (-51) * (mean + Qabs x * sigma) + 2 ^ (-1000))%Q.
(** [T] fits into 64 bits: [x] is at most 2^20, or not too large for the deviation. *)
Definition moderate (l : list Q) (x : Q) : Prop :=
  (Qabs x <= 2 ^ 20 \/ x * x * (variance l + (2 ^ (-51) * average l) * (2 ^ (-51) * average l)) <= 2 ^ 124)%Q.
(** The output of extract for the blots [es]: lines, or with -json one value after the other. *)
Definition printed (json only : bool) (docs : list (bytes * doc)) (es : list (N * list place)) (out : bytes) : Prop :=
  match json, only with
  | false, false => shows shows_line es out
  | false, true => shows shows_blot es out
  | true, _ => paths_are text_path docs -> exists vs, Forall2 value_of es vs /\ json_stream out = Some vs
  end.

(** ** like, blot and unblot *)

(** "\tpath start:end\n" *)
Inductive shows_place : place -> bytes -> Prop :=
  | shows_place_ p s e s' e' : numeral Printed.decimal s' s -> numeral Printed.decimal e' e ->
      shows_place (p, s, e) ([9] ++ p ++ bs " " ++ s' ++ bs ":" ++ e' ++ [10]).
(** "like file:\n" and the documents *)
Definition shows_like (f : bytes) (ps : list place) (t : bytes) : Prop :=
  exists ls, Forall2 shows_place ps ls /\ t = bs "like " ++ f ++ bs ":" ++ [10] ++ concat ls.
(** "text:\n'''\ntext'''\n" and the documents *)
Definition shows_text (g : bytes * list place) (t : bytes) : Prop :=
  exists ls, Forall2 shows_place (snd g) ls /\ t = bs "text:" ++ [10] ++ bs "'''" ++ [10] ++ fst g ++ bs "'''" ++ [10] ++ concat ls.

Section Queries.
  Variables (H : bytes -> N) (word : N -> bool) (n : nat) (docs : list (bytes * doc)) (w : world).
  (** The document at [key] shares with the text [dat] a stretch of eleven words that is, in
      [dat], the last with its blot. *)
  Definition alike (dat : bytes) (key : place) : Prop :=
    exists i cwd x ws sp dws dsp q t, nth_error docs i = Some (cwd, x) /\ key = place_of docs (N.of_nat (S i)) /\
      doc_words word dat ws /\ doc_spans word dat sp /\ doc_words word (d_dat x) dws /\ doc_spans word (d_dat x) dsp /\
      last_window H 1 10 n dat ws sp q t /\ some_window H 1 10 n (d_dat x) dws dsp q t.
  (** What like prints for a file: these documents, each once, in some order. *)
  Definition reports (f t : bytes) : Prop :=
    exists dat ps, at_file w f = Some dat /\ NoDup ps /\ (forall key, In key ps <-> alike dat key) /\ shows_like f ps t.
  (** What blot prints for a file. *)
  Definition blots_of (f t : bytes) : Prop :=
    exists dat ws ls, at_file w f = Some dat /\ doc_words word dat ws /\
      Forall2 (fun b l => exists d, numeral hexadecimal d (b mod (N.of_nat n * 65536)) /\ l = d ++ [10]) (spec_blots H 1 10 ws) ls /\ t = concat ls.
  (** What blot -offsets prints for a file: with each blot the range of eleven runs of word
      or of other characters, counted from the start (not of eleven words: C47). *)
  Definition offsets_of (f t : bytes) : Prop :=
    exists dat ws ls, at_file w f = Some dat /\ doc_words word dat ws /\
      let blots := spec_blots H 1 10 ws in
      List.length ls = List.length blots /\
      (forall i b, nth_error blots i = Some b -> exists rs d s e, is_text dat rs /\
         let size j := N.of_nat (List.length (utf8s (concat (map snd (firstn j (runs word (removelast rs))))))) in
         numeral hexadecimal d (b mod (N.of_nat n * 65536)) /\ numeral Printed.decimal s (size i) /\ numeral Printed.decimal e (size (11 + i)%nat) /\
         nth_error ls i = Some (d ++ bs " " ++ s ++ bs ":" ++ e ++ [10])) /\ t = concat ls.
  (** What unblot prints for a blot: the first stretches with that blot of the documents that
      have it, each with the documents it is of; without -all those of two or more. *)
  Definition texts_of (wss : list (list bytes)) (all : bool) (a t : bytes) : Prop :=
    exists q os g ts, spells a q /\ Forall2 (fun id o => outcome H 1 10 n word (at_file w) q (place_of docs id) o) (carriers H 1 10 n 0 wss q) os /\
      NoDup (map fst g) /\
      (forall x l, In (x, l) g <-> l <> [] /\ (all = true \/ (2 <= List.length l)%nat) /\
         l = concat (map (fun o => match o with Some (y, sh) => if list_eq_dec N.eq_dec y x then [sh] else [] | None => [] end) os)) /\
      Forall2 shows_text g ts /\ t = concat ts.
End Queries.

(** The arguments of blot, unblot and inspect. *)
Definition asks_blot (bargs : list bytes) (offsets : bool) (files : list bytes) : Prop :=
  exists os, reads_as blot_has bargs os files /\ valid (fun v f => parse_float v = Some f) blot_has os /\ set_to truth "offsets" false os offsets.
Definition asks_unblot (uargs : list bytes) (all : bool) (blots : list bytes) : Prop :=
  exists os, reads_as unblot_has uargs os blots /\ valid (fun v f => parse_float v = Some f) unblot_has os /\ set_to truth "all" false os all.
Definition asks_inspect (iargs : list bytes) (json : bool) : Prop :=
  exists os rest files, reads_as inspect_has iargs os rest /\ valid (fun v f => parse_float v = Some f) inspect_has os /\
    set_to truth "json" false os json /\ set_to truth "files" false os files.
(** The verbs with their flags, and arguments that ask for help or cannot be read. *)
Definition verb_flags : list (string * (bytes -> option fkind)) :=
  [("index", index_has); ("extract", extract_has); ("blot", blot_has); ("unblot", unblot_has); ("inspect", inspect_has); ("like", like_has)]%string.
Definition wants_help (verb : string) (vargs : list bytes) : Prop :=
  exists flags os ws h rest, In (verb, flags) verb_flags /\ vargs = ws ++ h :: rest /\ written_all flags os ws /\
    valid (fun v f => parse_float v = Some f) flags os /\ asks_help flags h.
Definition misread (verb : string) (vargs : list bytes) : Prop :=
  exists flags, In (verb, flags) verb_flags /\ forall os rest, reads_as flags vargs os rest -> ~ valid (fun v f => parse_float v = Some f) flags os.
(** What inspect prints. *)
Definition inspected (json : bool) (root : bytes) (n : nat) (docs : list (bytes * doc)) (posts : N) (mean sigma : Q) (out : bytes) : Prop :=
  if json then exists v, json_parse out = Some v /\ value_stats root (1 + nlen docs) (nlen (tree_nodes docs)) posts (N.of_nat n * 65536) mean sigma v
  else shows_stats root (1 + nlen docs) (nlen (tree_nodes docs)) posts (N.of_nat n * 65536) mean sigma out.
