(** A write to the posting file that fails: internal/shard/poster.go:85-99,147-189 and
    internal/shard/indexer.go:113-118,147-177, with the error paths.

    At most one write fails. Some bytes of it may reach the file. Stat, Seek and the writes
    to the table succeed. *)
From Verif Require Import Model.Base Model.Varint Model.Post Model.Address Model.Poster Model.Shard.
Local Open Scope N_scope.

(** [Some (n, k)]: [n] writes succeed, the next one writes only its first [k] bytes and
    returns an error, all later ones succeed. [None]: all succeed. *)
Definition fault := option (nat * nat).

(** os.File.WriteAt / Write: the file afterwards, the remaining fault, whether it
    succeeded. *)
Definition write_f (f : bytes) (off : nat) (d : bytes) (ft : fault) : bytes * fault * bool :=
  match ft with
  | None => (pwrite f off d, None, true)
  | Some (S n, k) => (pwrite f off d, Some (n, k), true)
  | Some (O, k) => (pwrite f off (firstn k d), None, false)
  end.

(** Which of the three writes of flushTo failed: poster.go:159, 175, 179. *)
Inductive failed := FLink | FLength | FChunk.

(** poster.go:166-188: from the Seek to the end; [end_] is the size the file had at
    poster.go:156. *)
Definition append_f (p : poster) (end_ : nat) (f : bytes) (ft : fault)
  : poster * bytes * fault * option failed :=
  (* p.posts = append(p.posts, z[:]...) comes before the writes *)
  let posts := p_posts p ++ put_be64 (u64_of_i64 (-1)) in
  let p := MkPoster (p_link p) (p_head p) (p_current p) (p_total p) posts in
  let len := put_varint (zlen posts) in
  let '(f, ft, ok) := write_f f end_ len ft in
  if negb ok then (p, f, ft, Some FLength)
  else
    let '(f, ft, ok) := write_f f (end_ + length len) posts ft in
    if negb ok then (p, f, ft, Some FChunk)
    else (MkPoster (Z.of_nat end_ + zlen len + zlen posts - 8) (p_head p) (p_current p) (p_total p) [],
          f, ft, None).

(** poster.go:147-189 *)
Definition flush_to_f (p : poster) (f : bytes) (ft : fault) : poster * bytes * fault * option failed :=
  match p_posts p with
  | [] => (p, f, ft, None)
  | _ =>
      let end_ := length f in
      if negb (p_link p =? -1)%Z then
        let '(f, ft, ok) := write_f f (Z.to_nat (p_link p)) (put_be64 (u64_of_i64 (Z.of_nat end_))) ft in
        if negb ok then (p, f, ft, Some FLink) else append_f p end_ f ft
      else append_f (MkPoster (p_link p) (Z.of_nat end_) (p_current p) (p_total p) (p_posts p)) end_ f ft
  end.

(** poster.go:85-99 *)
Definition add_post_f (p : poster) (v : N) (f : bytes) (ft : fault)
  : poster * bytes * fault * option failed :=
  if (p_current p =? v) && negb (p_total p =? 0) then (p, f, ft, None)
  else
    let delta := sub32 v (p_current p) in
    let p := MkPoster (p_link p) (p_head p) v (u32 (p_total p + 1))
                      (p_posts p ++ put_uvarint delta) in
    if (flush_rate <=? length (p_posts p))%nat then flush_to_f p f ft else (p, f, ft, None).

(** indexer.go:168-173. The error is only logged; [log] is that log. *)
Definition serve_post_f (x : shard) (p : post) (ft : fault) : shard * fault * list (nat * failed) :=
  let docid := post_docid p in
  let hash := N.to_nat (serve_slot p) in
  match nth_error (x_ind x) hash with
  | None => (x, ft, [])     (* not reached: hash < 1<<16 = len(ind) *)
  | Some po =>
      let '(po', f', ft', e) := add_post_f po docid (x_file x) ft in
      (MkShard (upd hash po' (x_ind x)) f', ft',
       match e with None => [] | Some w => [(hash, w)] end)
  end.
(** indexer.go:167-174 *)
Fixpoint serve_batch_f (x : shard) (ps : list post) (ft : fault) : shard * fault * list (nat * failed) :=
  match ps with
  | [] => (x, ft, [])
  | p :: r =>
      let '(x, ft, l) := serve_post_f x p ft in
      let '(x, ft, l') := serve_batch_f x r ft in
      (x, ft, l ++ l')
  end.

(** indexer.go:147-158: stops at the first error. *)
Fixpoint flush_ind_f (n i : nat) (x : shard) (ft : fault) : shard * fault * option failed :=
  match n with
  | O => (x, ft, None)
  | S k =>
      match nth_error (x_ind x) i with
      | None => (x, ft, None)
      | Some po =>
          let '(po', f', ft', e) := flush_to_f po (x_file x) ft in
          let x := MkShard (upd i po' (x_ind x)) f' in
          match e with None => flush_ind_f k (S i) x ft' | Some _ => (x, ft', e) end
      end
  end.
(** indexer.go:113-118: the two files, or the error Close returns. *)
Definition shard_close_f (x : shard) (ft : fault) : result (bytes * bytes) :=
  let '(x, _, e) := flush_ind_f (length (x_ind x)) 0 x ft in
  match e with None => Ok (iix_bytes (x_ind x), x_file x) | Some _ => Err EOther end.

(** One session of a shard: everything served, then Close. *)
Definition session_f (x : shard) (ps : list post) (ft : fault)
  : result (bytes * bytes) * list (nat * failed) :=
  let '(x, ft, log) := serve_batch_f x ps ft in (shard_close_f x ft, log).
