(** One shard: internal/shard/indexer.go (writer) and internal/shard/index.go (reader). *)
From Verif Require Import Model.Base Model.Varint Model.Post Model.Address Model.Poster.
Local Open Scope N_scope.

(** internal/shard/indexer.go:27-34: the array of 1<<16 posters and the posting file. The
    channel is modelled in Model/Conc. *)
Record shard := MkShard { x_ind : list poster; x_file : bytes }.

(** indexer.go:42-59 (posters and posting file; the table file is [iix_created]) *)
Definition shard_create : shard := MkShard (repeat new_poster num_slots) [].
Definition iix_create_writes : list bytes :=
  concat (repeat init_create_writes num_slots).

(** indexer.go:168-170: hash := p.Blot() & 0xffff; x.ind[hash].AddPost(docid, postFile). *)
Definition serve_post_w (x : shard) (p : post) : shard * list wop :=
  let docid := post_docid p in
  let hash := N.to_nat (serve_slot p) in
  match nth_error (x_ind x) hash with
  | None => (x, [])     (* not reached: hash < 1<<16 = len(ind) *)
  | Some po =>
      let '(po', ws) := add_post po docid (x_file x) in
      (MkShard (upd hash po' (x_ind x)) (apply_wops (x_file x) ws), ws)
  end.
Definition serve_post (x : shard) (p : post) : shard := fst (serve_post_w x p).

(** indexer.go:167-174: one batch *)
Definition serve_batch (x : shard) (ps : list post) : shard := fold_left serve_post ps x.

(** indexer.go:147-158: flush every poster, in slot order. *)
Fixpoint flush_ind_w (n i : nat) (x : shard) : shard * list wop :=
  match n with
  | O => (x, [])
  | S k =>
      match nth_error (x_ind x) i with
      | None => (x, [])
      | Some po =>
          let '(po', ws) := flush_to po (x_file x) in
          let '(x', ws') := flush_ind_w k (S i)
             (MkShard (upd i po' (x_ind x)) (apply_wops (x_file x) ws)) in
          (x', ws ++ ws')
      end
  end.
Definition flush_ind (x : shard) : shard := fst (flush_ind_w (length (x_ind x)) 0 x).

(** indexer.go:120-145: three writes per slot, after truncating the table. *)
Definition iix_entry_writes (p : poster) : list bytes :=
  [put_varint (p_head p); put_varint (Z.of_N (p_total p)); put_be32 (p_current p)].
Definition iix_writes (ps : list poster) : list bytes := concat (map iix_entry_writes ps).
Definition iix_bytes (ps : list poster) : bytes := concat (iix_writes ps).

(** indexer.go:113-118: the two files after Close *)
Definition shard_close (x : shard) : bytes * bytes :=
  let x' := flush_ind x in (iix_bytes (x_ind x'), x_file x').

(** indexer.go:89-105 *)
Fixpoint read_iix (n : nat) (r : bytes) : result (list poster) :=
  match n with
  | O => Ok []
  | S k => do! (p, r) <- init_append r; do! ps <- read_iix k r; Ok (p :: ps)
  end.
(** indexer.go:79-85 *)
Fixpoint read_links (ps : list poster) (f : bytes) : result (list poster) :=
  match ps with
  | [] => Ok []
  | p :: r => do! p' <- read_to_link p f; do! r' <- read_links r f; Ok (p' :: r')
  end.
(** indexer.go:61-64,70-87 *)
Definition shard_append (iix pos : bytes) : result shard :=
  do! ps <- read_iix num_slots iix;
  do! ps <- read_links ps pos;
  Ok (MkShard ps pos).

(** * Reader *)

(** index.go:26-33; [perm] is the result of sort.Slice, see [perm_ok]. *)
Record shard_index := MkShardIndex {
  si_heads : list Z; si_counts : list N; si_perm : list nat; si_file : bytes }.

(** index.go:122-143 *)
Fixpoint read_table (n : nat) (r : bytes) : result (list (Z * N)) :=
  match n with
  | O => Ok []
  | S k =>
      do! (hd, r) <- read_varint r;
      do! (ct, r) <- read_varint r;
      if (ct <? 0)%Z || (4294967296 <=? ct)%Z then Err EOther
      else
        do! (_, r) <- read_bytes 4 r;
        do! t <- read_table k r;
        Ok ((hd, Z.to_N ct) :: t)
  end.

(** index.go:144-146: sort.Slice is not stable, so [sorted] may be any function; what
    sorting guarantees is stated by [perm_ok] in Spec/Sorting. *)
Definition shard_open (sorted : list N -> list nat) (iix pos : bytes) : result shard_index :=
  do! t <- read_table num_slots iix;
  let counts := map snd t in
  Ok (MkShardIndex (map fst t) counts (sorted counts) pos).

(** read_state.go:19-27, without Shard and Error *)
Record read_state := MkReadState { rs_blot : nat; rs_at : nat; rs_total : N; rs_posts : posts }.

(** index.go:70-79. The arrays have 1<<16 entries and blot is a uint16, so the accesses
    cannot fail. *)
Definition read_state_for_blot_at (x : shard_index) (blot at_ : nat) : read_state :=
  MkReadState blot at_ (nth blot (si_counts x) 0) (new_posts (nth blot (si_heads x) (-1)%Z)).
(** index.go:52-68 *)
Definition read_state_for (x : shard_index) (blot : nat) : read_state :=
  read_state_for_blot_at x blot 0.
(** index.go:81-88 *)
Definition read_state_at (x : shard_index) (i : nat) : read_state :=
  read_state_for_blot_at x (nth i (si_perm x) 0%nat) i.
(** index.go:94-100 *)
Definition shard_num_posts (x : shard_index) : N := fold_left (fun t c => u64 (t + c)) (si_counts x) 0.

(** A shard's life: a creating session, then append sessions, each given by the posts it
    serves; the two files after the last Close. *)
Fixpoint shard_history (files : bytes * bytes) (ss : list (list post)) : result (bytes * bytes) :=
  match ss with
  | [] => Ok files
  | ps :: r =>
      do! x <- shard_append (fst files) (snd files);
      shard_history (shard_close (serve_batch x ps)) r
  end.
Definition shard_sessions (first : list post) (ss : list (list post)) : result (bytes * bytes) :=
  shard_history (shard_close (serve_batch shard_create first)) ss.
