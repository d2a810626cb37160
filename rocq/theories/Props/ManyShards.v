(** C64: numbers of shards. *)
From Coq Require Import String.
From Verif Require Import Model.Base Model.Path Model.Utf8 Model.Token Model.Blotter Model.Post Model.Address Model.Config Model.Session Model.Crash Model.Root Model.Options Model.Index Model.Query Model.Cmd.
From Verif Require Import Spec.Text Spec.Fingerprint Spec.Configs Spec.Str.
From Verif Require Import Proof.Tactics Proof.TokenP Proof.BlotterP Proof.AddressP Proof.ShatterP Proof.IndexP Proof.FindP Proof.OptionsP Proof.ManyShardsP.
Local Open Scope N_scope.
Local Open Scope list_scope.

(** index.go:217,257, blot.go:76 and like.go:93 compute nShard * (1 << 16) in uint32. Every
    multiple of 65536 is accepted as the number of shards ... *)
Theorem C64_accepted_refuted dirs there file cwd root j s : there (path_abs cwd root) = false ->
  exists x ws, get_indexer dirs there file cwd root (MkOpts false (65536 * Z.of_nat j) s 10 []) = Ok (x, ws) /\
    cf_numshards (x_cfg x) = (65536 * Z.of_nat j)%Z.
Proof.
  intros Ht. destruct (get_indexer_ok dirs there file cwd root (65536 * Z.of_nat j) s) as (x & ws & E & _ & Ex & _); [lia|exact Ht|].
  exists x, ws. split; [exact E|]. rewrite Ex. reflexivity.
Qed.
(** ... and then the product is 0: FindBlot and FindBlots panic on every document with a
    blot, and so do the blot and like commands on such a file. *)
Theorem C64_search_panics_refuted u c k m n d ws : cfg_ok c k m n -> N.of_nat n mod 65536 = 0 ->
  doc_words (word_char u) (d_dat d) ws -> (k * m < List.length ws)%nat ->
  (forall q, find_blot u c q d = Panic) /\ (forall mm, find_blots u c mm d = Panic).
Proof. intros C Z W L. exact (many_panic u c k m n C d ws Z W L). Qed.
Theorem C64_commands_panic_refuted u c k m n fname dat ws : cfg_ok c k m n -> N.of_nat n mod 65536 = 0 ->
  doc_words (word_char u) dat ws -> (k * m < List.length ws)%nat ->
  blot_file u c false fname dat = Panic /\
  forall fs grow ix fuel, ix_cfg ix = c -> like_file u fs grow ix fuel fname dat = Panic.
Proof. intros C Z W L. exact (many_commands u c k m n C fname dat ws Z W L). Qed.
(** With other numbers above 65536 the product is too small. A query reports the blots of a
    document as they are, but those from the product on are not found in the document they
    come from. *)
Theorem C64_not_found_refuted u c k m n d l q : cfg_ok c k m n -> 65536 < N.of_nat n < 2 ^ 32 -> N.of_nat n mod 65536 <> 0 ->
  blot_doc u c [] d = Ok l -> In q l -> q < 2 ^ 32 -> N.of_nat n mod 65536 * 65536 <= q ->
  (exists shard sblot, get_address (N.of_nat n) q = Ok (shard, sblot) /\ fill_blot_id (N.of_nat n) shard sblot = q) /\
  forall r, find_blot u c q d <> Ok r.
Proof.
  intros C Hn Z _ _ Q B. split; [|intros r; exact (many_not_found u c k m n C d q r Z B)].
  change (2 ^ 32) with 4294967296 in *. destruct (fill_blot_id_spec (N.of_nat n) q) as (s & b & E & F); [lia|exact Q|].
  exists s, b. split; [exact E|]. rewrite F. apply N.mod_small. lia.
Qed.
(** Below 65536 shards, FindBlot gives a place or an error. *)
Theorem C64_search_partial u c k m n d q : cfg_ok c k m n -> N.of_nat n < 65536 -> d_start d + nlen (d_dat d) < 2 ^ 32 ->
  (exists r, find_blot u c q d = Ok r) \/ find_blot u c q d = Err EOther.
Proof.
  intros C Hn B. destruct (doc_words_total u (d_dat d)) as [ws W]. destruct (doc_spans_total u (d_dat d)) as [sp S].
  destruct (find_blot_first u c k m n C Hn d q ws sp W S B) as [(i & a & b & _ & _ & _ & _ & _ & E)|(_ & E)]; [left; eexists; exact E|right; exact E].
Qed.
Print Assumptions C64_accepted_refuted.
Print Assumptions C64_search_panics_refuted.
Print Assumptions C64_commands_panic_refuted.
Print Assumptions C64_not_found_refuted.
Print Assumptions C64_search_partial.

Definition many_cfg (n : Z) : config := MkConfig (bs "/x") 10 n 4 16384 words_simple default_blot_config.
(** With 65537 shards the product is 65536, and the blot of this document is above it. *)
Example C64_example u : cfg_ok (many_cfg 65536) 1 10 (N.to_nat 65536) /\ N.of_nat (N.to_nat 65536) mod 65536 = 0 /\
  cfg_ok (many_cfg 65537) 1 10 (N.to_nat 65537) /\ N.of_nat (N.to_nat 65537) mod 65536 * 65536 = 65536 /\
  (exists q, blot_doc u (many_cfg 65537) [] (MkDoc (bs "/a") 0 58 (bs "one quick brown fox jumps over the lazy dog and runs away.")) = Ok [q; 793660740] /\ 65536 <= q < 2 ^ 32) /\
  exists ws, doc_words (word_char u) (bs "a b c d e f g h i j k l") ws /\ (1 * 10 < List.length ws)%nat.
Proof.
  assert (X : forall n, 0 < n -> cfg_ok (many_cfg (Z.of_N n)) 1 10 (N.to_nat n)).
  { intros n Hn. constructor; cbn [many_cfg cf_blot cf_seqlen cf_numshards cf_token]; try reflexivity; lia. }
  split; [apply (X 65536); reflexivity|]. split; [rewrite N2Nat.id; reflexivity|].
  split; [apply (X 65537); reflexivity|]. split; [rewrite N2Nat.id; reflexivity|].
  split; [eexists; split; [vm_compute; reflexivity|lia]|].
  exists (map bs ["a"; "b"; "c"; "d"; "e"; "f"; "g"; "h"; "i"; "j"; "k"]%string). split; [|cbn; lia].
  left. exists (bs "a b c d e f g h i j k l"). split; [split|reflexivity]; [repeat constructor|reflexivity].
Qed.
