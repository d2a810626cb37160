(** Failing writes: C44. *)
From Verif Require Import Model.Base Model.Varint Model.Post Model.Poster Model.Shard Model.Fault
  Spec.Postings Spec.Reading Spec.Failing Proof.Tactics Proof.VarintP Proof.ShardP Proof.FaultP4.
Local Open Scope N_scope.

(** C44: "If one write to a posting file fails and later ones succeed, the posting lists
    read after Close either are right or an error was reported by Close."

    The exact truth, for every shard a session can start with, every sequence of posts
    (fewer than 2^32 different documents per slot, fewer than 2^50 posts) and every failing
    write, however many of its bytes got written. [log] is what Serve printed to the log:
    - Close reports the error exactly when the failing write is one of its own;
    - if a link could not be written while serving, the lists are right nevertheless;
    - if a length or a chunk could not be written while serving, Close reports nothing, and
      the slot concerned cannot be read to its end. The other slots are right. *)
Theorem C44_failing_write_classified_partial sorted x hist ps ft r log :
  starts x hist -> bounded (hist ++ ps) -> (Z.of_nat (length ps) < 1125899906842624)%Z ->
  session_f x ps ft = (r, log) ->
  match r with
  | Ok files =>
      match log with
      | [] => forall s, (s < num_slots)%nat -> lists sorted files s (squeeze (posted s (hist ++ ps)))
      | [(s0, FLink)] => forall s, (s < num_slots)%nat -> lists sorted files s (squeeze (posted s (hist ++ ps)))
      | [(s0, _)] => (s0 < num_slots)%nat /\ unreadable sorted files s0 /\
          forall s, (s < num_slots)%nat -> s <> s0 -> lists sorted files s (squeeze (posted s (hist ++ ps)))
      | _ => False
      end
  | Err _ => log = [] /\ ft <> None
  | _ => False
  end.
Proof. exact (session_f_spec sorted x hist ps ft r log). Qed.
Print Assumptions C44_failing_write_classified_partial.

(** [n] documents 1, 2, ..., each with blot 0. *)
Definition c44_posts (n : nat) : list post := map (fun i => post_make (N.of_nat i) 0) (seq 1 n).

Lemma c44_bounded ps : (Z.of_nat (length ps) < 4294967296)%Z -> bounded ps.
Proof.
  intros H s. unfold nlen, posted. pose proof (squeeze_length (map post_docid (filter (fun p => post_blot p mod 65536 =? N.of_nat s) ps))) as L.
  rewrite map_length in L.
  assert (forall A (f : A -> bool) l, (length (filter f l) <= length l)%nat) as FL.
  { intros A f l. induction l as [|a l IH]; cbn [filter length]; [lia|]. destruct (f a); cbn [length]; lia. }
  specialize (FL _ (fun p => post_blot p mod 65536 =? N.of_nat s) ps). lia.
Qed.

(** Whatever a log shows, if it can be computed, determines the outcome of Close. *)
Lemma c44_ok x ps ft w : starts x [] -> (Z.of_nat (length ps) < 4294967296)%Z ->
  snd (session_f x ps ft) = [w] -> exists files, session_f x ps ft = (Ok files, [w]).
Proof.
  intros S L E. destruct (session_f x ps ft) as [r log] eqn:H. cbn [snd] in E. subst log.
  pose proof (session_f_spec (fun _ => []) x [] ps ft r [w] S (c44_bounded ps L) ltac:(lia) H) as K.
  destruct r as [files|e| |]; [eauto|destruct K; discriminate|destruct K|destruct K].
Qed.

(** False: a new shard, 512 documents in slot 0, the first write fails without writing a
    byte. Close succeeds, and slot 0 cannot be read. *)
Theorem C44_failing_write_refuted :
  ~ (forall sorted x hist ps ft files log,
       starts x hist -> bounded (hist ++ ps) -> (Z.of_nat (length ps) < 1125899906842624)%Z ->
       session_f x ps ft = (Ok files, log) ->
       forall s, (s < num_slots)%nat -> lists sorted files s (squeeze (posted s (hist ++ ps)))).
Proof.
  intros H.
  assert (snd (session_f shard_create (c44_posts 512) (Some (0, 0)%nat)) = [(0%nat, FLength)]) as E.
  { unfold session_f. 
    assert (snd (serve_batch_f shard_create (c44_posts 512) (Some (0, 0)%nat)) = [(0%nat, FLength)]) as E by (vm_compute; reflexivity).
    destruct (serve_batch_f _ _ _) as [[x1 ft1] l]. exact E. }
  assert (Z.of_nat (length (c44_posts 512)) < 4294967296)%Z as L by (unfold c44_posts; rewrite map_length, seq_length; lia).
  destruct (c44_ok _ _ _ _ starts_new L E) as [files F].
  pose proof (session_f_spec (fun _ => []) _ [] _ _ _ _ starts_new (c44_bounded _ L) ltac:(lia) F) as (K1 & (si & K2 & K3) & _).
  destruct (H (fun _ => []) _ [] _ _ _ _ starts_new (c44_bounded _ L) ltac:(lia) F 0%nat K1) as (si' & K4 & K5 & _).
  rewrite K2 in K4. injection K4 as <-. exact (K3 _ K5).
Qed.
Print Assumptions C44_failing_write_refuted.

(** If the write that fails is none of the appending writes made while serving, the
    property holds. *)
Theorem C44_right_or_reported_partial sorted x hist ps ft r log :
  starts x hist -> bounded (hist ++ ps) -> (Z.of_nat (length ps) < 1125899906842624)%Z ->
  session_f x ps ft = (r, log) -> (forall s w, In (s, w) log -> w = FLink) ->
  (exists e, r = Err e) \/
  exists files, r = Ok files /\
    forall s, (s < num_slots)%nat -> lists sorted files s (squeeze (posted s (hist ++ ps))).
Proof.
  intros S B L H F. pose proof (session_f_spec sorted x hist ps ft r log S B L H) as K.
  destruct r as [files|e| |]; [|eauto|destruct K|destruct K]. right. exists files. split; [reflexivity|].
  destruct log as [|[s0 w] [|]]; [exact K| |destruct w; destruct K].
  rewrite (F s0 w (or_introl eq_refl)) in K. exact K.
Qed.
Print Assumptions C44_right_or_reported_partial.

(** Without a failing write this model is the one all other properties are about. *)
Theorem C44_no_failure_same_model x ps : session_f x ps None = (Ok (shard_close (serve_batch x ps)), []).
Proof. exact (session_f_none x ps). Qed.
Print Assumptions C44_no_failure_same_model.

(** Every case occurs: a link that cannot be written, ... *)
Example C44_link_case : snd (session_f shard_create (c44_posts 1024) (Some (2, 3)%nat)) = [(0%nat, FLink)].
Proof.
  unfold session_f.
  assert (snd (serve_batch_f shard_create (c44_posts 1024) (Some (2, 3)%nat)) = [(0%nat, FLink)]) as E by (vm_compute; reflexivity).
  destruct (serve_batch_f _ _ _) as [[x1 ft1] l]. exact E.
Qed.
(** a chunk of which some bytes are written, ... *)
Example C44_chunk_case : snd (session_f shard_create (c44_posts 512) (Some (1, 100)%nat)) = [(0%nat, FChunk)].
Proof.
  unfold session_f.
  assert (snd (serve_batch_f shard_create (c44_posts 512) (Some (1, 100)%nat)) = [(0%nat, FChunk)]) as E by (vm_compute; reflexivity).
  destruct (serve_batch_f _ _ _) as [[x1 ft1] l]. exact E.
Qed.
(** a write of Close. *)
Example C44_close_case : session_f shard_create (c44_posts 3) (Some (1, 0)%nat) = (Err EOther, []).
Proof.
  unfold session_f, shard_close_f.
  destruct (serve_batch_f shard_create (c44_posts 3) (Some (1, 0)%nat)) as [[x1 ft1] l] eqn:E1.
  assert (l = []) as ->. { change l with (snd (x1, ft1, l)). rewrite <- E1. vm_compute. reflexivity. }
  assert ((fun t => snd (flush_ind_f (length (x_ind (fst (fst t)))) 0 (fst (fst t)) (snd (fst t))))
            (serve_batch_f shard_create (c44_posts 3) (Some (1, 0)%nat)) = Some FChunk) as K by (vm_compute; reflexivity).
  rewrite E1 in K. cbn [fst snd] in K.
  destruct (flush_ind_f (length (x_ind x1)) 0 x1 ft1) as [[x2 ft2] e]. cbn [snd] in K. subst e. reflexivity.
Qed.
