(** C61: the options of the index command. *)
From Coq Require Import String.
From Verif Require Import Model.Base Model.Path Model.Utf8 Model.Token Model.Blotter Model.Shatter Model.Shard Model.Conc Model.Config Model.Run Model.Index Model.Session Model.Crash Model.Root Model.Options.
From Verif Require Import Spec.Text Spec.Configs Spec.Paths Spec.History Spec.Str.
From Verif Require Import Proof.Tactics Proof.PathP Proof.TokenP Proof.BlotterP Proof.SessionP Proof.SessionP2 Proof.JsonP2 Proof.RootP Proof.OptionsP.
Local Open Scope N_scope.
Local Open Scope list_scope.

(** With the default -t, and 1 to 65535 shards and at least one worker, there is an index
    with these, which does what C26-C32 say, and all documents can be added. *)
Theorem C61_options_partial u dirs there file cwd root n s : (0 < n)%nat -> N.of_nat n < 65536 -> (0 < s)%nat -> rooted cwd -> there (show_abs (spec_abs cwd root)) = false ->
  exists x ws, get_indexer dirs there file cwd root (MkOpts false (Z.of_nat n) (Z.of_nat s) 10 []) = Ok (x, ws) /\
    List.length (x_shards x) = n /\ List.length ws = s /\ cf_root (x_cfg x) = show_abs (spec_abs cwd root) /\ cf_seqlen (x_cfg x) = 10%Z /\ cfg_full (x_cfg x) 1 10 n /\
    forall docs, docs_fit docs -> exists dk, session u (get_indexer dirs there file cwd root (MkOpts false (Z.of_nat n) (Z.of_nat s) 10 [])) docs dk /\ history u (x_cfg x) [docs] dk.
Proof.
  intros Hn Hb Hs Rc Ht. rewrite <- (path_abs_spec cwd root Rc) in *. destruct (get_indexer_ok dirs there file cwd root (Z.of_nat n) (Z.of_nat s)) as (x & ws & E & Ec & Ex & Lw & Lx & _); [lia|exact Ht|].
  exists x, ws. split; [exact E|]. split; [lia|]. split; [lia|]. rewrite Ex. split; [reflexivity|]. split; [reflexivity|]. split; [exact (opts_full cwd root n _ Hn Hb)|].
  intros docs Fit. rewrite <- Ex. destruct (opts_full cwd root n (Z.of_nat s) Hn Hb) as [A B C]. rewrite <- Ex in A, C.
  destruct (history_exists u (x_cfg x) 1 10 n A B C [docs]) as (dk & H); [discriminate|rewrite Ex; cbn [cf_numshatters]; lia|unfold all_docs; cbn [rev app concat]; rewrite app_nil_r; exact Fit|].
  exists dk. split; [|exact H]. inversion H as [d1 dk1 Hd|? ? ? ? H0]; subst.
  - rewrite Ex in Hd. rewrite E, <- Ec. exact Hd.
  - inversion H0.
Qed.
(** But no other -t is ever accepted: the length of the blotter's sequences stays 10. *)
Theorem C61_t_refuted dirs there file cwd root n s t : t <> 10%Z -> get_indexer dirs there file cwd root (MkOpts false n s t []) = Err EOther.
Proof. intros Ne. unfold get_indexer. cbn [op_add]. rewrite opt_config_t by exact Ne. reflexivity. Qed.
(** -s 0 is accepted, and then the first Add blocks for ever. *)
Theorem C61_s0_refuted u dirs there file cwd root n s : (0 <= n)%Z -> (s <= 0)%Z -> there (path_abs cwd root) = false ->
  exists x, get_indexer dirs there file cwd root (MkOpts false n s 10 []) = Ok (x, []) /\
  forall docs, docs <> [] ->
    (forall st, session_steps u (x_cfg x) (session_start (Dmd.adder_last (fst (x_dmds x))) [] (x_shards x) (requests docs)) st ->
       s_main st = MRun /\ ~ Forall client_done (s_clients st)) /\
    forall dk, ~ session u (get_indexer dirs there file cwd root (MkOpts false n s 10 [])) docs dk.
Proof.
  intros Hn Hs Ht. destruct (get_indexer_ok dirs there file cwd root n s Hn Ht) as (x & ws & E & _ & Ex & Lw & _ & _).
  assert (ws = []) by (destruct ws; [reflexivity|cbn in Lw; lia]); subst ws. exists x. split; [exact E|]. intros docs Ne. split.
  - intros st H. eapply no_workers; [|exact H]. unfold requests. destruct docs; [contradiction|discriminate].
  - intros dk. exact (no_session_workers u _ docs dk x E Ne).
Qed.
(** -n 0 is accepted, and then any document of more than ten words is the end of the process. *)
Theorem C61_n0_refuted u dirs there file cwd root s : there (path_abs cwd root) = false ->
  exists x ws0, get_indexer dirs there file cwd root (MkOpts false 0 s 10 []) = Ok (x, ws0) /\
  forall d ws, doc_words (word_char u) (d_dat d) ws -> (10 < List.length ws)%nat ->
    (forall w did, In w ws0 -> shatter_work u (Z.to_nat (cf_numshards (x_cfg x))) (cf_seqlen (x_cfg x)) w did (d_start d, d_dat d) = Panic) /\
    forall docs cwd' dk, In (cwd', d) docs -> ~ session u (get_indexer dirs there file cwd root (MkOpts false 0 s 10 [])) docs dk.
Proof.
  intros Ht. destruct (get_indexer_ok dirs there file cwd root 0 s) as (x & ws0 & E & _ & Ex & _ & _ & I); [lia|exact Ht|].
  exists x, ws0. split; [exact E|]. intros d ws Hw L. split.
  - intros w did Hi. rewrite Ex. cbn [cf_numshards cf_seqlen]. apply (proj2 (no_shards u w d ws Hw L) []).
    exact (proj1 (Forall_forall _ _) (I u) w Hi).
  - intros docs cwd' dk Hi. eapply no_session_shards; [exact E| | |exact Hi|exact Hw|exact L]; rewrite Ex; reflexivity.
Qed.
(** A negative -n panics. *)
Theorem C61_negative_n_refuted dirs there file cwd root n s : (n < 0)%Z -> get_indexer dirs there file cwd root (MkOpts false n s 10 []) = Panic.
Proof.
  intros Hn. unfold get_indexer. cbn [op_add]. rewrite opt_config_10. cbn [bind cf_numshards]. destruct (Z.ltb_spec n 0); [reflexivity|lia].
Qed.
(** With -a, all of the other options are ignored, even wrong ones. *)
Theorem C61_a_refuted dirs there file cwd root o o' : op_add o = true -> op_add o' = true ->
  get_indexer dirs there file cwd root o = get_indexer dirs there file cwd root o'.
Proof. intros A A'. unfold get_indexer. rewrite A, A'. reflexivity. Qed.
(** A root that is there already is refused, whatever the options ask for. *)
Theorem C61_existing_partial dirs there file cwd root n s t x : there (path_abs cwd root) = true ->
  get_indexer dirs there file cwd root (MkOpts false n s t []) <> Ok x.
Proof.
  intros Ht. destruct (Z.eq_dec t 10) as [->|Ne]; unfold get_indexer; cbn [op_add].
  - rewrite opt_config_10. cbn [bind cf_numshards cf_root]. rewrite Ht. destruct (n <? 0)%Z; discriminate.
  - rewrite opt_config_t by exact Ne. discriminate.
Qed.
(** -a opens the index that is in its place. *)
Theorem C61_a_partial u c k m n ss dk dirs there file cwd root o : cfg_full c k m n -> cfg_values c ->
  history u c ss dk -> cf_root c = path_abs cwd root -> dirs (path_abs cwd root) = files_of dk -> op_add o = true ->
  get_indexer dirs there file cwd root o = open_indexer dk.
Proof.
  intros F V H R E A. unfold get_indexer. rewrite A.
  exact (proj2 (in_place u c k m n F V ss dk dirs cwd root H R E (fun _ => []))).
Qed.
Print Assumptions C61_existing_partial.
Print Assumptions C61_a_partial.
Print Assumptions C61_options_partial.
Print Assumptions C61_t_refuted.
Print Assumptions C61_s0_refuted.
Print Assumptions C61_n0_refuted.
Print Assumptions C61_negative_n_refuted.
Print Assumptions C61_a_refuted.

Definition ex_doc : doc := MkDoc (bs "/a") 0 23 (bs "a b c d e f g h i j k l").
Example C61_example u : exists ws, doc_words (word_char u) (d_dat ex_doc) ws /\ (10 < List.length ws)%nat /\ docs_fit [(bs "/", ex_doc)].
Proof.
  exists (map bs ["a"; "b"; "c"; "d"; "e"; "f"; "g"; "h"; "i"; "j"; "k"]%string). split; [|split].
  - left. exists (d_dat ex_doc). split; [split|reflexivity].
    + repeat constructor.
    + reflexivity.
  - cbn. lia.
  - constructor; [|reflexivity|reflexivity]. constructor; [|constructor]. split; [eexists; reflexivity|split; reflexivity].
Qed.
