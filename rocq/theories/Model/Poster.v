(** The posting list of one blot: internal/shard/poster.go (writer) and
    internal/shard/posts.go, read_state.go (reader). *)
From Verif Require Import Model.Base Model.Varint.
Local Open Scope N_scope.

(** internal/shard/poster.go:24-33. [buf] is scratch space and [blot] is the position in
    the shard's array; both are left out. [posts] never outgrows its backing array
    (see [add_post_posts_bound]), so it does not overlap [buf]. *)
Record poster := MkPoster {
  p_link : Z;       (* file position of the link field of the last chunk, -1: none *)
  p_head : Z;       (* file position of the first chunk, -1: none *)
  p_current : N;    (* last document id posted *)
  p_total : N;      (* number of posts *)
  p_posts : bytes   (* encoded deltas not yet flushed *)
}.

(** poster.go:35-37 *)
Definition flush_rate : nat := 512.

(** poster.go:39-47 *)
Definition new_poster : poster := MkPoster (-1) (-1) 0 0 [].

(** poster.go:49-58: what creating an index writes to the table for one blot (note: head
    and 4 zero bytes, but no total). *)
Definition init_create_writes : list bytes := [put_varint (-1); [0; 0; 0; 0]].

(** poster.go:73-78: r.ReadByte four times *)
Fixpoint read_bytes (n : nat) (r : bytes) : result (bytes * bytes) :=
  match n with
  | O => Ok ([], r)
  | S k => match r with
           | [] => Err EOF
           | b :: r' => do! (bs, r'') <- read_bytes k r'; Ok (b :: bs, r'')
           end
  end.
(** binary.ReadVarint where its error is not looked at: the number that it returns in any
    case, and what is left to read. *)
Fixpoint lax_uvarint_aux (fuel : nat) (r : bytes) (x s : N) : N * bytes :=
  match fuel with
  | O => (x, r)
  | S k =>
      match r with
      | [] => (x, [])
      | b :: r' =>
          if b <? 128 then
            if (k =? 0)%nat && (1 <? b) then (x, r')
            else (N.lor x (u64 (N.shiftl b s)), r')
          else lax_uvarint_aux k r' (N.lor x (u64 (N.shiftl (N.land b 127) s))) (s + 7)
      end
  end.
Definition lax_varint (r : bytes) : Z * bytes :=
  let '(ux, r') := lax_uvarint_aux max_varint_len64 r 0 0 in (unzigzag ux, r').
(** poster.go:60-83. The error of reading the total is overwritten. *)
Definition init_append (r : bytes) : result (poster * bytes) :=
  do! (head, r) <- read_varint r;
  let '(ttl, r) := lax_varint r in
  if (ttl <? 0)%Z || (4294967296 <=? ttl)%Z then Err EOther
  else
    do! (buf, r) <- read_bytes 4 r;
    Ok (MkPoster (-1) head (be32 buf) (Z.to_N ttl) [], r).

(** A write to the posting file: position and data. *)
Definition wop := (nat * bytes)%type.
Definition apply_wops (f : bytes) (ws : list wop) : bytes :=
  fold_left (fun f w => pwrite f (fst w) (snd w)) ws f.

(** poster.go:147-189. Returns the writes it makes, in order: link of the previous chunk,
    length, chunk. *)
Definition flush_to (p : poster) (f : bytes) : poster * list wop :=
  match p_posts p with
  | [] => (p, [])
  | _ =>
      let end_ := length f in
      let linked := negb (p_link p =? -1)%Z in
      let w1 := if linked then [(Z.to_nat (p_link p), put_be64 (u64_of_i64 (Z.of_nat end_)))] else [] in
      let head := if linked then p_head p else Z.of_nat end_ in
      let posts := p_posts p ++ put_be64 (u64_of_i64 (-1)) in
      let len := put_varint (zlen posts) in
      (MkPoster (Z.of_nat end_ + zlen len + zlen posts - 8) head (p_current p) (p_total p) [],
       w1 ++ [(end_, len); ((end_ + length len)%nat, posts)])
  end.

(** poster.go:85-99 *)
Definition add_post (p : poster) (v : N) (f : bytes) : poster * list wop :=
  if (p_current p =? v) && negb (p_total p =? 0) then (p, [])
  else
    let delta := sub32 v (p_current p) in
    let p := MkPoster (p_link p) (p_head p) v (u32 (p_total p + 1))
                      (p_posts p ++ put_uvarint delta) in
    if (flush_rate <=? length (p_posts p))%nat then flush_to p f else (p, []).

(** posts.go:48-72: read byte by byte, at most MaxVarintLen64 *)
Fixpoint read_varint_at_aux (fuel : nat) (f : bytes) (p n : Z) (buf : bytes) : result (Z * Z) :=
  match fuel with
  | O => Err EOther                                   (* "read varint overflow" *)
  | S k =>
      do! b <- pread f (p + n) 1;
      let buf := buf ++ b in
      let n := (n + 1)%Z in
      if (match b with c :: _ => c <? 128 | [] => false end) then
        let '(v, m) := varint buf in
        if (m <=? 0)%Z then Err EOther else Ok (v, n)
      else read_varint_at_aux k f p n buf
  end.
Definition read_varint_at (f : bytes) (p : Z) : result (Z * Z) :=
  read_varint_at_aux max_varint_len64 f p 0 [].

(** poster.go:107-139: follow the chain to its last chunk. [fuel] bounds the number of
    chunks visited. *)
Fixpoint read_to_link_aux (fuel : nat) (p : poster) (f : bytes) (head : Z) : result poster :=
  match fuel with
  | O => Loop
  | S k =>
      do! (v, n) <- read_varint_at f head;
      if (v <=? 8)%Z then Err EOther
      else
        do! buf <- pread f (head + n) v;
        let link := i64_of_u64 (be64 (skipn (Z.to_nat v - 8) buf)) in
        if (link =? -1)%Z
        then Ok (MkPoster (head + n + v - 8) (p_head p) (p_current p) (p_total p) (p_posts p))
        else read_to_link_aux k p f link
  end.
Definition read_to_link (p : poster) (f : bytes) : result poster :=
  if (p_head p =? -1)%Z then Ok p
  else if negb (p_link p =? -1)%Z then Panic
  else read_to_link_aux (S (length f)) p f (p_head p).

(** * Reader *)

(** posts.go:24-31 without the buffers; posts.go:39-46 *)
Record posts := MkPosts { r_i : nat; r_nextpos : Z; r_current : N; r_docids : list N }.
Definition new_posts (head : Z) : posts := MkPosts 0 head 0 [].

(** Size of the reader's buffer: posts.go:43-45, flushRate + 2*MaxVarintLen64 + 8 bytes of
    which the first MaxVarintLen64 are split off. *)
Definition reader_buf : Z := 530.

(** posts.go:105-122: [buf] from position [i] on is [rest]; [len8] = len(buf) - 8. *)
Fixpoint decode_chunk (fuel : nat) (rest : bytes) (i len8 : Z) (cur : N) (ids : list N)
  : result (list N * N * bytes) :=
  match fuel with
  | O => Loop
  | S k =>
      let '(d, t) := uvarint rest in
      if (t <=? 0)%Z then Err EOther
      else
        let i := (i + t)%Z in
        let rest := skipn (Z.to_nat t) rest in
        if 4294967296 <=? d then Err EOther
        else
          let cur := add32 cur d in
          let ids := ids ++ [cur] in
          if (len8 <? i)%Z then Err EOther
          else if (i =? len8)%Z then Ok (ids, cur, rest)
          else decode_chunk k rest i len8 cur ids
  end.

(** posts.go:89-126. Slicing p.buf[:v] panics when v is negative or beyond the buffer.
    Errors are wrapped, hence never io.EOF. The state after an error is not modelled. *)
Definition wrap_err {A} (r : result A) : result A :=
  match r with Err _ => Err EOther | x => x end.
Definition read_next (p : posts) (f : bytes) : result posts :=
  do! (v, n) <- wrap_err (read_varint_at f (r_nextpos p));
  if (v <? 0)%Z || (reader_buf <? v)%Z then Panic
  else
    do! buf <- wrap_err (pread f (r_nextpos p + n) v);
    do! (ids, cur, rest) <- decode_chunk (S (length buf)) buf 0 (v - 8) (r_current p) [];
    Ok (MkPosts 0 (i64_of_u64 (be64 rest)) cur ids).

(** posts.go:74-87 and read_state.go:29-33 *)
Definition posts_next (p : posts) (f : bytes) : result (N * posts) :=
  do! p <- (if (r_i p =? length (r_docids p))%nat then
              if (r_nextpos p =? -1)%Z then Err EOF else read_next p f
            else Ok p);
  match nth_error (r_docids p) (r_i p) with
  | None => Panic
  | Some d => Ok (d, MkPosts (S (r_i p)) (r_nextpos p) (r_current p) (r_docids p))
  end.
