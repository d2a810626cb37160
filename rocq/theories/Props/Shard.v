(** C11-C14: posting lists. A shard's life is a creating session followed by any number of
    append sessions; each session serves a list of posts (in any order). *)
From Verif Require Import Model.Base Model.Varint Model.Post Model.Poster Model.Shard
  Spec.Postings Spec.Reading Proof.Tactics Proof.VarintP Proof.PosterP Proof.ShardP.
Local Open Scope N_scope.

(** The counts are uint32: at most 2^32-1 documents per slot. *)
Definition counts_fit (ps : list post) : Prop :=
  forall s, N.of_nat (length (squeeze (posted s ps))) < 2 ^ 32.

(** C11: for every slot, what is read is what was posted, consecutive repetitions removed,
    and the count is its length. *)
Theorem C11_posting_list_reads_back : forall sorted first later,
  let all := first ++ concat later in
  counts_fit all ->
  exists iix pos si,
    shard_sessions first later = Ok (iix, pos) /\ shard_open sorted iix pos = Ok si /\
    forall s, (s < num_slots)%nat ->
      reads (si_file si) (rs_posts (read_state_for si s)) (squeeze (posted s all)) /\
      rs_total (read_state_for si s) = N.of_nat (length (squeeze (posted s all))).
Proof. exact shard_reads_back. Qed.
Print Assumptions C11_posting_list_reads_back.

(** C12: two lives of a shard that post the same documents to slot [s], whatever they post
    elsewhere and however they are cut into sessions, give the same list for [s]. *)
Theorem C12_blots_do_not_interfere : forall sorted first1 later1 first2 later2 s,
  counts_fit (first1 ++ concat later1) -> counts_fit (first2 ++ concat later2) ->
  (s < num_slots)%nat ->
  posted s (first1 ++ concat later1) = posted s (first2 ++ concat later2) ->
  exists iix1 pos1 si1 iix2 pos2 si2 ids,
    shard_sessions first1 later1 = Ok (iix1, pos1) /\ shard_open sorted iix1 pos1 = Ok si1 /\
    shard_sessions first2 later2 = Ok (iix2, pos2) /\ shard_open sorted iix2 pos2 = Ok si2 /\
    reads (si_file si1) (rs_posts (read_state_for si1 s)) ids /\
    reads (si_file si2) (rs_posts (read_state_for si2 s)) ids.
Proof.
  intros sorted f1 l1 f2 l2 s B1 B2 Hs E.
  destruct (shard_reads_back sorted f1 l1 B1) as (i1 & p1 & s1 & A1 & A2 & A3).
  destruct (shard_reads_back sorted f2 l2 B2) as (i2 & p2 & s2 & A4 & A5 & A6).
  exists i1, p1, s1, i2, p2, s2, (squeeze (posted s (f1 ++ concat l1))).
  specialize (A3 s Hs). specialize (A6 s Hs). cbv zeta in *. rewrite <- E in A6. tauto.
Qed.
Print Assumptions C12_blots_do_not_interfere.

(** C13: on files produced by any life of a shard, any number of reads succeed or report
    end of file, never another error and never a panic, and re-opening succeeds. *)
Theorem C13_no_decode_error : forall sorted first later,
  counts_fit (first ++ concat later) ->
  exists iix pos si,
    shard_sessions first later = Ok (iix, pos) /\ shard_open sorted iix pos = Ok si /\
    (exists x, shard_append iix pos = Ok x) /\
    forall s k, (s < num_slots)%nat ->
      exists ids, drain k (si_file si) (rs_posts (read_state_for si s)) = Ok ids.
Proof.
  intros sorted first later B.
  destruct (shard_reads_back sorted first later B) as (iix & pos & si & A1 & A2 & A3).
  exists iix, pos, si. split; [exact A1|]. split; [exact A2|].
  split; [exact (shard_append_reachable _ _ _ _ B A1)|].
  intros s k Hs. destruct (A3 s Hs) as [R _]. eexists. apply reads_drain. exact R.
Qed.
(** The writer never makes a chunk that exceeds the reader's buffer: the buffer of posts
    stays below 512 bytes before, and below 517 when flushed (the link adds 8 to that). *)
Theorem C13_chunks_fit_reader : forall s log p ids v f,
  f = render 0 log -> log_ok log -> poster_inv s log p ids -> v < 2 ^ 32 -> nlen ids < 2 ^ 32 ->
  exists log', apply_wops f (snd (add_post p v f)) = render 0 log' /\
    Forall (fun e => (Z.of_nat (length (payload (snd e)) + 8) <= reader_buf)%Z) log'.
Proof.
  intros s log p ids v f Hf Hok I Hv Hn.
  destruct (add_post_inv s log p ids f v Hf Hok I Hv Hn) as (log' & L1 & L2 & _).
  exists log'. split; [exact L1|]. revert L2. unfold log_ok. apply Forall_impl.
  intros e (_ & _ & H). unfold reader_buf. lia.
Qed.
Print Assumptions C13_no_decode_error.
Print Assumptions C13_chunks_fit_reader.

(** C14: any table with int64 heads and uint32 totals and last ids, read by the appender and
    by the reader. *)
Theorem C14_table_roundtrip : forall ps : list poster,
  Forall (fun p => (- 2 ^ 63 <= p_head p < 2 ^ 63)%Z /\ p_total p < 2 ^ 32 /\ p_current p < 2 ^ 32) ps ->
  forall rest,
  read_iix (length ps) (iix_bytes ps ++ rest) =
    Ok (map (fun p => MkPoster (-1) (p_head p) (p_current p) (p_total p) []) ps) /\
  read_table (length ps) (iix_bytes ps ++ rest) = Ok (map (fun p => (p_head p, p_total p)) ps).
Proof. intros ps H rest. split; [exact (read_iix_spec ps rest H) | exact (read_table_spec ps rest H)]. Qed.
Print Assumptions C14_table_roundtrip.

(** Examples. A history with repeated documents, two slots and a second session. *)
Definition example_first : list post := [post_make 1 7; post_make 1 7; post_make 1 65543; post_make 2 9; post_make 3 7].
Definition example_later : list (list post) := [[post_make 4 9; post_make 4 7]; []; [post_make 5 7]].
Lemma short_fits ps : (length ps < 1000)%nat -> counts_fit ps.
Proof.
  intros H s. pose proof (squeeze_length (posted s ps)). unfold posted in *. rewrite map_length in *.
  assert (length (filter (fun p => post_blot p mod 65536 =? N.of_nat s)%N ps) <= length ps)%nat.
  { clear. induction ps as [|p r IH]; cbn [filter length]; [lia|]. destruct (_ =? N.of_nat s)%N; cbn [length]; lia. }
  change (2 ^ 32) with 4294967296. lia.
Qed.
Example C11_example : counts_fit (example_first ++ concat example_later) /\
  squeeze (posted 7 (example_first ++ concat example_later)) = [1; 3; 4; 5] /\
  squeeze (posted 9 (example_first ++ concat example_later)) = [2; 4].
Proof. split; [apply short_fits; vm_compute; lia|]. split; vm_compute; reflexivity. Qed.

(** One poster with enough posts (every 1000th document) to flush twice, executed. *)
Definition example_run : poster * bytes :=
  let ids := map (fun i => N.of_nat i * 1000) (seq 1 600) in
  let '(p, f) := fold_left (fun '(p, f) v => let '(p', ws) := add_post p v f in (p', apply_wops f ws))
                           ids (new_poster, []) in
  let '(p', ws) := flush_to p f in (p', apply_wops f ws).
Example C11_poster_example :
  drain 700 (snd example_run) (new_posts (p_head (fst example_run))) =
    Ok (map (fun i => N.of_nat i * 1000) (seq 1 600)) /\
  length (snd example_run) = 1230%nat /\
  read_to_link (MkPoster (-1) (p_head (fst example_run)) (p_current (fst example_run)) (p_total (fst example_run)) [])
    (snd example_run) = Ok (fst example_run).
Proof. split; [|split]; vm_compute; reflexivity. Qed.
Example C14_example : exists ps : list poster, length ps = 2%nat /\
  Forall (fun p => (- 2 ^ 63 <= p_head p < 2 ^ 63)%Z /\ p_total p < 2 ^ 32 /\ p_current p < 2 ^ 32) ps /\
  read_table 2 (iix_bytes ps) = Ok [((-1)%Z, 0); (1000000%Z, 4294967295)].
Proof.
  exists [new_poster; MkPoster 5 1000000 77 4294967295 []]. split; [reflexivity|]. split.
  - repeat constructor; cbn; lia.
  - vm_compute. reflexivity.
Qed.
