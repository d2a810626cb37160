(** cmd/dupi/blot.go, like.go, unblot.go and doc.go:39-69. *)
From Verif Require Import Model.Base Model.Utf8 Model.Token Model.Blotter Model.Config Model.Index Model.Query.
Local Open Scope N_scope.

(** The files as they are while the command runs: a path's content, or None if it cannot be
    opened or read. *)
Definition files := bytes -> option bytes.

(** doc.go:39-69 *)
Definition doc_load (fs : files) (path : bytes) (start end_ : N) : result doc :=
  match fs path with
  | None => Err EOther
  | Some content =>
      if (start =? 0) && (end_ =? 0) then Ok (MkDoc path start (u32 (nlen content)) content)
      else match pread content (Z.of_N start) (Z.of_N (sub32 end_ start)) with
           | Ok d => Ok (MkDoc path start end_ d)
           | Err _ => Err EOther
           | Panic => Panic
           | Loop => Loop
           end
  end.

(** toks[i] *)
Definition tok_at (toks : list token) (i : Z) : result token :=
  if (i <? 0)%Z then Panic else match nth_error toks (Z.to_nat i) with None => Panic | Some t => Ok t end.
(** toks[i].Pos and toks[i+seqLen].Pos + uint32(len(toks[i+seqLen].Lit)) *)
Definition tok_range (c : config) (toks : list token) (i : Z) : result (N * N) :=
  do! t0 <- tok_at toks i;
  do! t1 <- tok_at toks (i + cf_seqlen c);
  Ok (t_pos t0, add32 (t_pos t1) (u32 (nlen (t_lit t1)))).

Section Cmd.
  Variable u : unicode.

  (** blot.go:76-86: the lines printed *)
  Fixpoint blot_lines (c : config) (offsets : bool) (toks : list token) (i : Z) (blots : list N) : result (list (N * option (N * N))) :=
    match blots with
    | [] => Ok []
    | b :: r =>
        do! range <- (if offsets then do! x <- tok_range c toks i; Ok (Some x) else Ok None);
        if blot_space c =? 0 then Panic
        else do! rest <- blot_lines c offsets toks (i + 1) r; Ok ((b mod blot_space c, range) :: rest)
    end.
  (** blot.go:60-88 on a file with content [dat] *)
  Definition blot_file (c : config) (offsets : bool) (fname dat : bytes) : result (list (N * option (N * N))) :=
    do! blots <- blot_doc u c [] (MkDoc fname 0 (u32 (nlen dat)) dat);
    do! toks <- (if offsets then idx_tokenize u c dat 0 else Ok []);
    blot_lines c offsets toks 0 blots.

  (** like.go:83-92: the words moved to the front, the rest as it was *)
  Definition words_first (toks : list token) : list token :=
    let ws := filter is_word toks in ws ++ skipn (length ws) toks.
  (** like.go:93-100 *)
  Fixpoint like_texts (c : config) (dat : bytes) (toks : list token) (i : Z) (blots : list N) (bm : tmap) : result tmap :=
    match blots with
    | [] => Ok bm
    | b :: r =>
        do! (beg, end_) <- tok_range c toks i;
        if blot_space c =? 0 then Panic
        else do! txt <- slice dat beg end_;
             like_texts c dat toks (i + 1) r (tset (b mod blot_space c) txt bm)
    end.

  Variables (fs : files) (grow : nat -> nat) (ix : index).
  (** A document's identity (like.go:59-69) *)
  Notation dkey := (bytes * N * N)%type.
  Definition same_key (a b : dkey) : bool :=
    let '(p, s, e) := a in let '(p', s', e') := b in eq_bytes p p' && (s =? s') && (e =? e').
  (** FindBlots on a document not loaded yet (index.go:192-231) *)
  Definition load_find_blots (bm : tmap) (key : dkey) : result tmap :=
    let '(path, start, end_) := key in
    do! d <- doc_load fs path start end_; find_blots u (ix_cfg ix) bm d.
  (** like.go:111-125 *)
  Fixpoint like_docs (bm : tmap) (keys : list dkey) (found : list dkey) : result (list dkey) :=
    match keys with
    | [] => Ok found
    | key :: r =>
        if existsb (same_key key) found then like_docs bm r found
        else do! rm <- load_find_blots bm key;
             like_docs bm r (match rm with [] => found | _ => found ++ [key] end)
    end.
  (** The path, start and end of the documents of a slice. *)
  Definition keys_of (ds : docs) : list dkey :=
    match ds with None => [] | Some (n, back) => map (fun d => (d_path d, d_start d, d_end d)) (firstn n back) end.
  (** like.go:104-126 *)
  Fixpoint like_loop (fuel : nat) (bm : tmap) (blots : list N) (found : list dkey) : result (list dkey) :=
    match blots with
    | [] => Ok found
    | blot :: r =>
        if blot_space (ix_cfg ix) =? 0 then Panic
        else
          do! ds <- query_get grow ix fuel (blot mod blot_space (ix_cfg ix)) None;
          do! found <- like_docs bm (keys_of ds) found;
          like_loop fuel bm r found
    end.
  (** like.go:71-139 on a file with content [dat]: the documents printed, in the order they
      were found; they are printed in any order (like.go:127-137: the keys of a map, sorted by
      a number that is always 1). *)
  Definition like_file (fuel : nat) (fname dat : bytes) : result (list dkey) :=
    do! blots <- blot_doc u (ix_cfg ix) [] (MkDoc fname 0 (u32 (nlen dat)) dat);
    do! toks <- idx_tokenize u (ix_cfg ix) dat 0;
    do! bm <- like_texts (ix_cfg ix) dat (words_first toks) 0 blots [];
    like_loop fuel bm blots [].

  (** unblot.go:60-72: a map from texts to documents; [add_text] is append(m[dat], doc) *)
  Definition groups := list (bytes * list dkey).
  Fixpoint add_text (m : groups) (txt : bytes) (key : dkey) : groups :=
    match m with
    | [] => [(txt, [key])]
    | (t, l) :: r => if eq_bytes t txt then (t, l ++ [key]) :: r else (t, l) :: add_text r txt key
    end.
  Fixpoint unblot_docs (blot : N) (keys : list dkey) (m : groups) : result groups :=
    match keys with
    | [] => Ok m
    | (path, start, end_) :: r =>
        match (do! d <- doc_load fs path start end_; do! rng <- find_blot u (ix_cfg ix) blot d; Ok (d, rng)) with
        | Err _ => unblot_docs blot r m                              (* log, continue *)
        | Panic => Panic
        | Loop => Loop
        | Ok (d, (s, e)) =>
            do! txt <- slice (d_dat d) (sub32 s (d_start d)) (sub32 e (d_start d));
            unblot_docs blot r (add_text m txt (d_path d, d_start d, d_end d))
        end
    end.
  (** unblot.go:50-82 for one blot: the texts printed with their documents, in any order
      of the texts *)
  Definition unblot (fuel : nat) (all : bool) (blot : N) : result groups :=
    do! ds <- query_get grow ix fuel blot None;
    do! m <- unblot_docs blot (keys_of ds) [];
    Ok (filter (fun g => all || (2 <=? length (snd g))%nat) m).
End Cmd.
