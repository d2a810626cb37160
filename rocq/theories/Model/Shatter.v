(** shatter.go: what one worker does with one document, up to [send] (whose
    synchronisation is in Model/Conc). *)
From Verif Require Import Model.Base Model.Utf8 Model.Token Model.Blotter Model.Post Model.Address.
Local Open Scope N_scope.

Section Shatter.
  Variable u : unicode.

  (** shatter.go:138-142: [d] is s.d, one slice of posts per shard. *)
  Definition shatter_blot_d (d : list (list N)) (docid b : N) : result (list (list N)) :=
    do! (i, p) <- shatter_blot (u32 (nlen d)) docid b;
    match nth_error d (N.to_nat i) with
    | None => Panic                        (* not reached *)
    | Some ps => Ok (upd (N.to_nat i) (ps ++ [p]) d)
    end.

  (** shatter.go:100-111 *)
  Fixpoint shatter_loop (seqlen : Z) (did : N) (toks : list token) (words : Z)
      (bl : blotter) (d : list (list N)) : result (blotter * list (list N)) :=
    match toks with
    | [] => Ok (bl, d)
    | t :: r =>
        match t_tag t with
        | Word =>
            do! (bl, b) <- blotter_blot u bl (t_lit t);
            let words := (words + 1)%Z in
            if (seqlen <? words)%Z
            then do! d <- shatter_blot_d d did b; shatter_loop seqlen did r words bl d
            else shatter_loop seqlen did r words bl d
        | Other => shatter_loop seqlen did r words bl d
        end
    end.

  (** shatter.go:94-113, from an s.d of [n] nil slices (newShatter, and send leaves them
      nil again): the worker's next state and the batches handed to send. *)
  Definition shatter_do (n : nat) (seqlen : Z) (bl : blotter) (did offset : N) (msg : bytes)
      : result (blotter * list (list N)) :=
    shatter_loop seqlen did (tokenize u msg offset) 0 bl (repeat [] n).
End Shatter.
