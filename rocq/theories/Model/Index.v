(** index.go: blotting and searching documents. *)
From Verif Require Import Model.Base Model.Utf8 Model.Token Model.Blotter Model.Config.
Local Open Scope N_scope.

(** doc.go:26-31, once loaded; a nil Dat is a document still to be loaded (Model/Cmd). *)
Record doc := MkDoc { d_path : bytes; d_start : N; d_end : N; d_dat : bytes }.

Section Index.
  Variable u : unicode.

  (** index.go:126-140: both panic on an error of the constructor *)
  Definition idx_blotter (c : config) : result blotter :=
    match blotter_from_config (cf_blot c) with Ok b => Ok b | Err _ => Panic | Panic => Panic | Loop => Loop end.
  Definition idx_tokenize (c : config) (dat : bytes) (start : N) : result (list token) :=
    match token_from_config (cf_token c) with Ok _ => Ok (tokenize u dat start) | Err _ => Panic | Panic => Panic | Loop => Loop end.

  (** index.go:166-174 *)
  Fixpoint blot_doc_loop (seqlen : Z) (b : blotter) (i : Z) (toks : list token) (dst : list N) : result (list N) :=
    match toks with
    | [] => Ok dst
    | t :: r =>
        do! (b, blot) <- blotter_blot u b (t_lit t);
        if (i <? seqlen)%Z then blot_doc_loop seqlen b (i + 1) r dst
        else blot_doc_loop seqlen b (i + 1) r (dst ++ [blot])
    end.
  (** index.go:154-175; the in-place filtering of lines 158-165 leaves toks[:j] = the word
      tokens *)
  Definition blot_doc (c : config) (dst : list N) (d : doc) : result (list N) :=
    do! toks <- idx_tokenize c (d_dat d) (d_start d);
    do! b <- idx_blotter c;
    blot_doc_loop (cf_seqlen c) b 0 (filter is_word toks) dst.

  (** nShard * (1 << 16) in uint32 *)
  Definition blot_space (c : config) : N := u32 (u32 (Z.to_N (cf_numshards c mod 4294967296)) * 65536).

  (** index.go:252-266. [all] is toks[:j]. For a sequence length below 0 the code would
      index past toks[:j]; the model then panics. *)
  Fixpoint find_blot_loop (c : config) (the_blot : N) (all : list token) (b : blotter) (i : Z) (toks : list token)
      : result (N * N) :=
    match toks with
    | [] => Err EOther
    | t :: r =>
        do! (b, blot) <- blotter_blot u b (t_lit t);
        if (i <? cf_seqlen c)%Z then find_blot_loop c the_blot all b (i + 1) r
        else if blot_space c =? 0 then Panic
        else if negb (blot mod blot_space c =? the_blot) then find_blot_loop c the_blot all b (i + 1) r
        else match nth_error all (Z.to_nat (i - cf_seqlen c)) with
             | None => Panic
             | Some t0 => Ok (t_pos t0, add32 (t_pos t) (u32 (nlen (t_lit t))))
             end
    end.
  (** index.go:233-267 *)
  Definition find_blot (c : config) (the_blot : N) (d : doc) : result (N * N) :=
    do! toks <- idx_tokenize c (d_dat d) (d_start d);
    do! b <- idx_blotter c;
    let ws := filter is_word toks in
    find_blot_loop c the_blot ws b 0 ws.

  (** Go map[uint32][]byte; a missing key reads as nil *)
  Definition tmap := list (N * bytes).
  Fixpoint tget (k : N) (m : tmap) : option bytes :=
    match m with [] => None | (k', v) :: r => if k' =? k then Some v else tget k r end.
  Definition tset (k : N) (v : bytes) (m : tmap) : tmap := (k, v) :: m.
  (** doc.Dat[start:end], for a Dat whose capacity is its length *)
  Definition slice (dat : bytes) (start end_ : N) : result bytes :=
    if (start <=? end_) && (end_ <=? nlen dat)
    then Ok (sub (N.to_nat start) (N.to_nat end_) dat) else Panic.

  (** index.go:212-229; [m]'s values are not nil (a nil value reads like a missing key) *)
  Fixpoint find_blots_loop (c : config) (m : tmap) (dat : bytes) (all : list token) (b : blotter) (i : Z)
      (toks : list token) (res : tmap) : result tmap :=
    match toks with
    | [] => Ok res
    | t :: r =>
        do! (b, blot) <- blotter_blot u b (t_lit t);
        if (i <? cf_seqlen c)%Z then find_blots_loop c m dat all b (i + 1) r res
        else if blot_space c =? 0 then Panic
        else
          let blot := blot mod blot_space c in
          match tget blot m with
          | None => find_blots_loop c m dat all b (i + 1) r res
          | Some want =>
              match nth_error all (Z.to_nat (i - cf_seqlen c)) with
              | None => Panic
              | Some t0 =>
                  do! txt <- slice dat (t_pos t0) (add32 (t_pos t) (u32 (nlen (t_lit t))));
                  find_blots_loop c m dat all b (i + 1) r
                    (if eq_bytes want txt then tset blot txt res else res)
              end
          end
    end.
  (** index.go:192-231 *)
  Definition find_blots (c : config) (m : tmap) (d : doc) : result tmap :=
    do! toks <- idx_tokenize c (d_dat d) (d_start d);
    do! b <- idx_blotter c;
    let ws := filter is_word toks in
    find_blots_loop c m (d_dat d) ws b 0 ws [].
End Index.
