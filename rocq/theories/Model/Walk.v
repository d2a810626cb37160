(** cmd/dupi/index.go:94-144, with filepath.WalkDir, Join and Clean (Go 1.17) and os.Lstat's
    base names. *)
From Verif Require Import Model.Base Model.Path Model.Index.
Local Open Scope N_scope.

(** filepath.Clean of a path that does not start with '/': like Model/Path's, with [dd] for
    dotdot. *)
Fixpoint clean_pop_to (dd : nat) (ro : bytes) : bytes :=
  match ro with
  | [] => []
  | c :: ro' => if (dd <? length ro')%nat && negb (c =? sep) then clean_pop_to dd ro' else ro'
  end.
Fixpoint clean_rel_loop (fuel : nat) (s ro : bytes) (dd : nat) : bytes :=
  match fuel with
  | O => ro
  | S k =>
      match s with
      | [] => ro
      | c :: r =>
          if c =? sep then clean_rel_loop k r ro dd
          else if (c =? dot) && at_end r then clean_rel_loop k r ro dd
          else if (c =? dot) && (match r with c2 :: r2 => (c2 =? dot) && at_end r2 | [] => false end)
          then if (dd <? length ro)%nat then clean_rel_loop k (skipn 1 r) (clean_pop_to dd ro) dd
               else let ro := dot :: dot :: (if (0 <? length ro)%nat then sep :: ro else ro) in
                    clean_rel_loop k (skipn 1 r) ro (length ro)
          else
            let ro := if (length ro =? 0)%nat then ro else sep :: ro in
            let '(s', ro') := clean_copy s ro in
            clean_rel_loop k s' ro' dd
      end
  end.
(** filepath.Clean *)
Definition clean (path : bytes) : bytes :=
  match path with
  | [] => [dot]
  | _ => if is_abs path then clean_rooted path
         else match clean_rel_loop (length path) path [] 0 with [] => [dot] | ro => rev ro end
  end.
(** filepath.Join(path, name), for a name that is not empty *)
Definition join_path (path name : bytes) : bytes :=
  match path with [] => clean name | _ => clean (path ++ sep :: name) end.

(** os/path_unix.go:basename *)
Fixpoint drop_slashes (r : bytes) : bytes :=                   (* [r] is the name reversed *)
  match r with
  | c :: (_ :: _) as t => if c =? sep then drop_slashes t else r
  | _ => r
  end.
Fixpoint up_to_slash (r : bytes) : bytes :=
  match r with [] => [] | c :: t => if c =? sep then [] else c :: up_to_slash t end.
Definition base_name (name : bytes) : bytes :=
  match drop_slashes (rev name) with
  | [] => []
  | c :: t => rev (c :: up_to_slash t)
  end.

(** Files and directories. A leaf is anything that is not a directory (also a symbolic link
    or a device): opening it fails, or reading it fails, or its bytes are read. Opening
    something that blocks is not modelled. A directory's entries come in lexical order;
    [None] if they cannot be read. The tree does not change while it is walked. *)
Inductive leaf := CannotOpen | CannotRead | Reads (dat : bytes).
Inductive tree := Leaf (o : leaf) | Dir (entries : option (list (bytes * tree))).

(** What a walk function returns: nil, SkipDir, another error. *)
Inductive wres := WNil | WSkip | WErr.
(** The variable behind perr (not nil?), and the documents added so far. *)
Definition wstate := (bool * list doc)%type.

(** index.go:112 *)
Definition hidden (name : bytes) : bool :=
  match name with c :: _ :: _ => c =? dot | _ => false end.

Section Walk.
  (** Indexer.Add's success, by path; a document that is not added leaves no trace here. *)
  Variable add_ok : bytes -> bool.
  (** Does walkDir turn SkipDir into nil when it comes from reporting an unreadable
      directory? (Not in Go 1.17, but in later versions.) *)
  Variable fixed : bool.

  (** index.go:106-137 with err == nil *)
  Definition walk_fn_leaf (path name : bytes) (o : leaf) (s : wstate) : wstate * wres :=
    if hidden name then (s, WNil)
    else match o with
         | CannotOpen => (s, WErr)                                        (* 122-125 *)
         | CannotRead => ((true, snd s), WErr)                            (* 127-131 *)
         | Reads dat =>
             if add_ok path then ((fst s, snd s ++ [MkDoc path 0 (u32 (nlen dat)) dat]), WNil)
             else (s, WErr)                                               (* 136 *)
         end.
  (** path/filepath/path.go:walkDir *)
  Fixpoint walk_dir (t : tree) (path name : bytes) (s : wstate) : wstate * wres :=
    match t with
    | Leaf o => walk_fn_leaf path name o s
    | Dir entries =>
        if hidden name then (s, WNil)                                     (* SkipDir from a directory *)
        else match entries with
             | None => ((true, snd s), if fixed then WNil else WSkip)     (* index.go:107-111 *)
             | Some es =>
                 (fix go es s :=
                    match es with
                    | [] => (s, WNil)
                    | (n, t') :: r =>
                        match walk_dir t' (join_path path n) n s with
                        | (s, WNil) => go r s
                        | (s, WSkip) => (s, WNil)
                        | (s, WErr) => (s, WErr)
                        end
                    end) es s
             end
    end.
  (** index.go:140-144 (WalkDir's result is dropped): the error returned and the documents;
      [None]: os.Lstat fails *)
  Definition do_path (root : option tree) (path : bytes) (docs : list doc) : bool * list doc :=
    match root with
    | None => (true, docs)
    | Some t => fst (walk_dir t path (base_name path) (false, docs))
    end.
  (** index.go:94-102: is an error returned, and what was added *)
  Fixpoint do_paths (lstat : bytes -> option tree) (paths : list bytes) (s : wstate) : wstate :=
    match paths with
    | [] => s
    | p :: r => let '(e, docs) := do_path (lstat p) p (snd s) in do_paths lstat r (fst s || e, docs)
    end.
End Walk.
