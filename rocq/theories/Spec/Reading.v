(** Reading a posting list to the end, in terms of the reader's Next. *)
From Verif Require Import Model.Base Model.Poster.

(** Calling Next repeatedly returns [ids] one by one and then io.EOF. *)
Fixpoint reads (f : bytes) (r : posts) (ids : list N) : Prop :=
  match ids with
  | [] => posts_next r f = Err EOF
  | d :: rest => exists r', posts_next r f = Ok (d, r') /\ reads f r' rest
  end.

(** At most [k] calls of Next; stops at io.EOF; any other failure is reported. *)
Fixpoint drain (k : nat) (f : bytes) (r : posts) : result (list N) :=
  match k with
  | O => Ok []
  | S k' =>
      match posts_next r f with
      | Ok (d, r') => do! l <- drain k' f r'; Ok (d :: l)
      | Err EOF => Ok []
      | Err EOther => Err EOther
      | Panic => Panic
      | Loop => Loop
      end
  end.
