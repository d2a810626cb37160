(** What the reading side is measured against. *)
From Coq Require Import Permutation.
From Verif Require Import Model.Base Model.Poster Model.Shard Model.Index Model.Query Spec.Reading.
Local Open Scope N_scope.

(** What sorting guarantees about the order of the slots: they all occur, by decreasing count. *)
Definition perm_ok (counts : list N) (perm : list nat) : Prop :=
  Permutation perm (seq 0 num_slots) /\
  forall i j, (i <= j < num_slots)%nat -> nth (nth j perm 0%nat) counts 0 <= nth (nth i perm 0%nat) counts 0.

(** The documents in a slice, without their data. *)
Definition doc_key (d : doc) : bytes * N * N := (d_path d, d_start d, d_end d).
Definition docs_list (ds : docs) : list doc := match ds with None => [] | Some (n, back) => firstn n back end.
Definition docs_keys (ds : docs) : list (bytes * N * N) := map doc_key (docs_list ds).
Definition docs_wf (ds : docs) : Prop := match ds with None => True | Some (n, back) => (n <= length back)%nat end.

(** An open index with [n] shards whose slot [b] of shard [s] holds the documents
    [content s b], document [d] being at [place d]. *)
Record index_ok (ix : index) (n : nat) (content : nat -> nat -> list N) (place : N -> bytes * N * N) : Prop := {
  io_len : length (ix_shards ix) = n;
  io_pos : (0 < n)%nat;
  io_max : N.of_nat n < 65536;
  io_reads : forall s si, nth_error (ix_shards ix) s = Some si -> forall b, (b < num_slots)%nat ->
    reads (si_file si) (new_posts (nth b (si_heads si) (-1)%Z)) (content s b) /\
    nth b (si_counts si) 0 = nlen (content s b);
  io_perm : forall s si, nth_error (ix_shards ix) s = Some si -> perm_ok (si_counts si) (si_perm si);
  io_place : forall s b d, (s < n)%nat -> (b < num_slots)%nat -> In d (content s b) -> docid2doc ix d = Ok (place d) }.

(** Calling Query.Next again and again, with destinations that satisfy [ok]. *)
Section Listing.
  Variables (grow : nat -> nat) (ix : index) (fuel : nat) (ok : list blot_entry -> Prop).
  (** All that is returned up to end of file. *)
  Inductive listing : qstate -> list blot_entry -> Prop :=
    | listing_end q dst k r : ok dst -> query_next grow ix fuel k q dst = Ok (r, true) -> listing q []
    | listing_more q dst k r out : ok dst -> query_next grow ix fuel k q dst = Ok (r, false) -> listing (r_q r) out ->
        listing q (firstn (r_n r) (r_dst r) ++ out).
  (** The states between the calls, and what has been returned so far. *)
  Inductive queried : qstate -> list blot_entry -> Prop :=
    | queried_start : queried (start_query ix) []
    | queried_next q out dst k r eof : queried q out -> ok dst -> query_next grow ix fuel k q dst = Ok (r, eof) ->
        queried (r_q r) (out ++ firstn (r_n r) (r_dst r)).
End Listing.
(** Entries without limit (query.go:110: Docs is nil). *)
Definition unlimited (dst : list blot_entry) : Prop := Forall (fun e => be_docs e = None) dst.
(** The documents of a blot, and the blots with at least two of them. *)
Definition at_blot (n : nat) (content : nat -> nat -> list N) (blot : N) : list N :=
  content (N.to_nat (blot mod N.of_nat n)) (N.to_nat (blot / N.of_nat n mod 65536)).
Definition duplicated (n : nat) (content : nat -> nat -> list N) (blot : N) : Prop :=
  blot < N.of_nat n * 65536 /\ (2 <= length (at_blot n content blot))%nat.
(** [sort.Slice] by count, whatever it does to equal counts. *)
Definition sorts (sorted : list N -> list nat) : Prop := forall counts, length counts = num_slots -> perm_ok counts (sorted counts).
(** Entries that are unlimited, or limited but with more room than any blot has documents. *)
Definition roomy (n : nat) (content : nat -> nat -> list N) (e : blot_entry) : Prop :=
  match be_docs e with
  | None => True
  | Some (len, back) => len = 0%nat /\ forall s b, (s < n)%nat -> (b < num_slots)%nat -> (length (content s b) < length back)%nat
  end.
(** One entry with room for two documents. *)
Definition room_for_two (dst : list blot_entry) : Prop := exists e back, dst = [MkEntry e (Some (0%nat, back))] /\ length back = 2%nat.
