(** What arbitrary bytes mean as numbers, file names, posting lists and records. *)
From Verif Require Import Model.Base.
Local Open Scope N_scope.

(** A number in base 128, least significant digit first, all but the last with the high bit
    set. *)
Inductive base128 : bytes -> N -> Prop :=
  | b128_last b : b < 128 -> base128 [b] b
  | b128_more b s v : 128 <= b -> base128 s v -> base128 (b :: s) (b mod 128 + 128 * v).
(** At most ten bytes, and 64 or 32 bits. *)
Definition number (s : bytes) (v : N) : Prop := base128 s v /\ (length s <= 10)%nat /\ v < 2 ^ 64.
Definition number32 (s : bytes) (v : N) : Prop := number s v /\ v < 2 ^ 32.
(** Even numbers stand for 0, 1, 2, ..., odd ones for -1, -2, .... *)
Definition signed (v : N) : Z := if N.even v then Z.of_N (v / 2) else (- Z.of_N (v / 2) - 1)%Z.
Definition big_endian (l : bytes) : N := fold_left (fun a b => a * 256 + b) l 0.
Definition twos64 (x : N) : Z := if x <? 2 ^ 63 then Z.of_N x else (Z.of_N x - 2 ^ 64)%Z.

Definition is_byte (b : N) : Prop := b < 256.

(** * The file of names *)
(** Entries: the length of the name, the name, and the number of the parent. *)
Inductive entries : bytes -> list (bytes * N) -> Prop :=
  | entries_none r : entries r []
  | entries_one s1 name s2 parent r es : number32 s1 (nlen name) -> number32 s2 parent -> entries r es ->
      entries (s1 ++ name ++ s2 ++ r) ((name, parent) :: es).
(** A file that says it has [v] entries and starts with the entries [es]. *)
Definition names_file (f : bytes) (v : N) (es : list (bytes * N)) : Prop :=
  exists s r, f = s ++ r /\ number32 s v /\ entries r es /\ nlen es <= v.
(** All there, with parents among them. *)
Definition names_good (f : bytes) (es : list (bytes * N)) : Prop :=
  names_file f (nlen es) es /\ Forall (fun e => snd e < nlen es) es.
(** There is an entry with a parent that is not there; those before it are good. *)
Definition names_bad (f : bytes) : Prop :=
  exists v es e, names_file f v (es ++ [e]) /\ Forall (fun e => snd e < v) es /\ v <= snd e.
(** From entry [v], by way of parents, to entry 0: the names on the way. *)
Inductive climbs (es : list (bytes * N)) : N -> list bytes -> Prop :=
  | climbs_top : es <> [] -> climbs es 0 []
  | climbs_up v name parent ns : v <> 0 -> nth_error es (N.to_nat v) = Some (name, parent) -> climbs es parent ns ->
      climbs es v (name :: ns).
(** The path: each name after a slash, the outermost first; the root is a slash. *)
Definition path_up (ns : list bytes) : bytes :=
  match ns with [] => [47] | _ => concat (map (cons 47) (rev ns)) end.

(** * Posting lists *)
(** [s] is in the file at position [pos]. *)
Definition lies_at (f : bytes) (pos : Z) (s : bytes) : Prop := exists a b, f = a ++ s ++ b /\ zlen a = pos.
Inductive deltas : bytes -> list N -> Prop :=
  | deltas_none : deltas [] []
  | deltas_one s d r ds : number32 s d -> deltas r ds -> deltas (s ++ r) (d :: ds).
(** A chunk: its length, differences of ids, and the position of the next. *)
Definition chunk (f : bytes) (pos : Z) (ds : list N) (next : Z) : Prop :=
  exists s n body link, lies_at f pos (s ++ body ++ link) /\ number s n /\ signed n = (zlen body + 8)%Z /\ (zlen body <= 522)%Z /\
    length link = 8%nat /\ deltas body ds /\ ds <> [] /\ next = twos64 (big_endian link).
(** A length that no chunk has: negative, or more than the buffer. *)
Definition misfit (f : bytes) (pos : Z) : Prop :=
  exists s n, lies_at f pos s /\ number s n /\ (signed n < 0 \/ 530 < signed n)%Z.
Fixpoint ids_from (cur : N) (ds : list N) : list N :=
  match ds with [] => [] | d :: r => let c := (cur + d) mod 2 ^ 32 in c :: ids_from c r end.
(** The ids of the chunks from [pos] to before [pos']. *)
Inductive walk (f : bytes) : Z -> N -> list N -> Z -> N -> Prop :=
  | walk_none pos cur : walk f pos cur [] pos cur
  | walk_chunk pos cur ds next ids pos' cur' : chunk f pos ds next -> walk f next (last (ids_from cur ds) 0) ids pos' cur' ->
      walk f pos cur (ids_from cur ds ++ ids) pos' cur'.

(** * Documents *)
(** Record [id] of the table of documents: file, start and end. *)
Definition record (f : bytes) (id fid start end_ : N) : Prop :=
  exists b1 b2 b3, lies_at f (Z.of_N id * 12) (b1 ++ b2 ++ b3) /\ length b1 = 4%nat /\ length b2 = 4%nat /\ length b3 = 4%nat /\
    fid = big_endian b1 /\ start = big_endian b2 /\ end_ = big_endian b3.
Definition found (dmd : bytes) (es : list (bytes * N)) (id : N) (k : bytes * N * N) : Prop :=
  exists fid ns, record dmd id fid (snd (fst k)) (snd k) /\ climbs es fid ns /\ fst (fst k) = path_up ns.
(** Of a file that is not in the list of names. *)
Definition stray (dmd : bytes) (es : list (bytes * N)) (id : N) : Prop :=
  exists fid start end_, record dmd id fid start end_ /\ nlen es <= fid.
(** Of a file from which parents do not lead to the root. *)
Definition circular (dmd : bytes) (es : list (bytes * N)) (id : N) : Prop :=
  exists fid start end_, record dmd id fid start end_ /\ fid < nlen es /\ forall ns, ~ climbs es fid ns.

(** * A query *)
Section Query.
  Variables (dmd : bytes) (es : list (bytes * N)) (f : bytes) (head : Z).
  (** All of the documents, to the end. *)
  Definition complete (ids : list N) (keys : list (bytes * N * N)) : Prop :=
    (exists cur, walk f head 0 ids (-1) cur) /\ Forall2 (found dmd es) ids keys.
  (** A misfit or a stray document is reached. *)
  Definition crashes : Prop :=
    (exists ids keys pos cur, walk f head 0 ids pos cur /\ Forall2 (found dmd es) ids keys /\ misfit f pos) \/
    (exists a x b keys pos cur, walk f head 0 (a ++ x :: b) pos cur /\ Forall2 (found dmd es) a keys /\ stray dmd es x).
  (** A circular document is reached, or else any number of documents. *)
  Definition endless : Prop := forall n,
    (exists a x b keys pos cur, walk f head 0 (a ++ x :: b) pos cur /\ Forall2 (found dmd es) a keys /\ circular dmd es x) \/
    (exists a b keys pos cur, walk f head 0 (a ++ b) pos cur /\ Forall2 (found dmd es) a keys /\ length a = n).
End Query.

(** * The table of a shard *)
(** Per slot: the position of the first chunk, a count, and four bytes. *)
Inductive slots : bytes -> list Z -> Prop :=
  | slots_none r : slots r []
  | slots_one s1 n1 s2 n2 b r hs : number s1 n1 -> number s2 n2 -> (0 <= signed n2 < 2 ^ 32)%Z -> length b = 4%nat -> slots r hs ->
      slots (s1 ++ s2 ++ b ++ r) (signed n1 :: hs).
