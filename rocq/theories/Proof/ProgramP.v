(** Whole runs of dupi. *)
From Coq Require Import String QArith Permutation.
From Verif Require Import Model.Base Model.Utf8 Model.Path Model.Float Model.Token Model.Blotter Model.Config Model.Index Model.Query
  Model.Session Model.Crash Model.Root Model.Args Model.Flags Model.Verbs Model.Options Model.Walk Model.Extract Model.Stats Model.Output Model.Program.
From Verif Require Import Spec.Text Spec.Fingerprint Spec.Configs Spec.Paths Spec.Tree Spec.Reading Spec.Querying Spec.History Spec.Printed Spec.Str Spec.Cmdline Spec.Program.
From Verif Require Import Proof.Tactics Proof.PathP Proof.TokenP Proof.ArgsP Proof.FlagsP Proof.VerbsP Proof.WalkP Proof.SessionP Proof.SessionP2 Proof.RootP Proof.OptionsP Proof.FuelP Proof.OutputP Proof.OutputP2 Props.Verbs.
Local Open Scope N_scope.
Local Open Scope list_scope.

(** * The command line *)
Lemma verb_iff a : is_verb a = true <-> In a verb_names.
Proof.
  unfold is_verb. rewrite existsb_exists. split.
  - intros (x & I & E). apply beq_iff in E. subst x. exact I.
  - intros I. exists a. split; [exact I|]. apply beq_iff. reflexivity.
Qed.
Lemma command_main w R v rest args : command w R v rest args -> In (bs v) verb_names -> main args (at_env w) (at_home w) = RunVerb (bs v) rest R.
Proof.
  intros (N & C) V. apply verb_iff in V.
  assert (G : forall pre, root_options pre [] R -> Forall (fun a => is_verb a = false) pre -> main (pre ++ bs v :: rest) (at_env w) (at_home w) = RunVerb (bs v) rest R).
  { intros pre O P. unfold main. rewrite (split_at _ rest pre P V), V, (parse_options pre [] R O) by lia. destruct R; [congruence|reflexivity]. }
  destruct C as [[NV ->]|[->|[-> <-]]].
  - apply (G [bs "-r"; R]); [apply (ros_cons [bs "-r"; R] [] [] R); constructor|]. constructor; [reflexivity|]. constructor; [|constructor].
    destruct (is_verb R) eqn:E; [|reflexivity]. apply verb_iff in E. contradiction.
  - apply (G [bs "-r=" ++ R]); [apply (ros_cons [bs "-r=" ++ R] [] [] R); constructor|]. constructor; [reflexivity|constructor].
  - pose proof (split_at (bs v) rest [] (Forall_nil _) V) as SP. cbn [app] in SP. unfold main. rewrite SP, V. cbn. unfold index_root. destruct (at_env w); [congruence|reflexivity].
Qed.

(** * The walk *)
Lemma listing_leaves t : listable t -> listing t (leaves t).
Proof.
  induction t as [o| |es IH] using tree_rect'; intros L; [constructor|exfalso; apply (L []); constructor|].
  constructor. cbn [leaves]. induction es as [|[n t] es IHes]; cbn [flat_map]; [constructor|]. inversion IH as [|? ? H1 H2]; subst. cbn [fst snd] in *.
  assert (T : entries es (flat_map (fun e => if hidden (fst e) then [] else map (fun x => (fst e :: fst x, snd x)) (leaves (snd e))) es)).
  { apply IHes; [exact H2|]. intros cs Hv Hc. apply (L cs Hv). inv Hc. econstructor; [right; eassumption|eassumption]. }
  destruct (hidden n) eqn:E.
  - apply entries_hidden; [apply hidden_dot, E|exact T].
  - apply hidden_no in E. apply entries_next; [exact E| |exact T]. apply H1. intros cs Hv Hc. apply (L (n :: cs)); [constructor; assumption|]. econstructor; [left; reflexivity|exact Hc].
Qed.
Lemma listing_fun t : forall l l', listing t l -> listing t l' -> l = l'.
Proof.
  induction t as [o| |es IH] using tree_rect'; intros l l' H H'; inversion H as [|? ? E]; inversion H' as [|? ? E']; subst; [reflexivity|].
  clear H H'. revert l l' E E'. induction es as [|[n t] es IHes]; intros l l' E E'; [inv E; inv E'; reflexivity|].
  inversion IH as [|? ? H1 H2]; subst. cbn [snd] in H1. specialize (IHes H2).
  inversion E as [|n1 t1 es1 k1 D1 T1|n1 t1 es1 a1 b1 D1 A1 B1]; subst; inversion E' as [|n2 t2 es2 k2 D2 T2|n2 t2 es2 a2 b2 D2 A2 B2]; subst; try contradiction; auto.
  rewrite (H1 _ _ A1 A2), (IHes _ _ B1 B2). reflexivity.
Qed.

Section Walked.
  Variables (fixed : bool) (w : world).
  Lemma walk_found p docs : rooted (at_cwd w) -> (forall t, at_tree w p = Some t -> good_tree t) -> ~ dotted p ->
    (exists t, at_tree w p = Some t /\ listable t /\ all_read t) ->
    exists news, do_path (fun _ => true) fixed (at_tree w p) p docs = (false, docs ++ news) /\ found w p (map (pair (at_cwd w)) news).
  Proof.
    intros R G Hd (t & El & Hl & Hr). specialize (G t El). rewrite El. unfold do_path.
    destruct (walk_dir (fun _ => true) fixed t p (base_name p) (false, docs)) as [[e ds] r] eqn:Ew. cbn [fst].
    destruct (walk_spec (fun _ => true) fixed (at_cwd w) t G _ _ _ _ _ Ew) as (news & fs & A & B & C & D1 & D2 & D3 & D4 & D5). cbn [fst snd] in *.
    assert (Hh : hidden (base_name p) = false).
    { destruct (hidden (base_name p)) eqn:Eh; [|reflexivity]. exfalso. apply Hd, base_hidden, Eh. }
    destruct (D4 Hh (fun _ => eq_refl) Hr Hl) as [-> _].
    destruct (D3 Hh (fun _ => eq_refl)) as (_ & -> & _); [|reflexivity|].
    { intros cs Hv Hf. destruct (Hr cs _ Hv Hf). discriminate. }
    exists news. subst ds. split; [reflexivity|]. exists t, (leaves t). split; [exact El|]. split; [apply listing_leaves, Hl|].
    clear -B. induction B as [|d x news fs (H1 & H2 & H3 & H4) B IH]; [constructor|]. cbn [map]. constructor; [|exact IH]. cbn [fst snd].
    split; [reflexivity|]. exists (d_dat d). split; [exact H2|]. split; [exact H1|]. split; [reflexivity|]. split; [exact H3|exact H4].
  Qed.
  Lemma walk_paths paths : walkable w paths -> forall docs, exists news,
    do_paths (fun _ => true) fixed (at_tree w) paths (false, docs) = (false, docs ++ news) /\ walked w paths (map (pair (at_cwd w)) news).
  Proof.
    intros (R & G & H). induction paths as [|p paths IH]; intros docs.
    - exists []. rewrite app_nil_r. split; [reflexivity|]. exists []. split; [constructor|reflexivity].
    - cbn [do_paths snd]. destruct (H p (or_introl eq_refl)) as [Hd Ht].
      destruct (walk_found p docs R (G p) Hd Ht) as (n1 & E1 & F1). rewrite E1. cbn [fst orb].
      destruct (IH (fun q Hq => H q (or_intror Hq)) (docs ++ n1)) as (n2 & E2 & (ds & F2 & E3)). exists (n1 ++ n2). rewrite E2, app_assoc. split; [reflexivity|].
      exists (map (pair (at_cwd w)) n1 :: ds). split; [constructor; assumption|]. rewrite map_app, E3. reflexivity.
  Qed.
End Walked.

(** The same documents, but for the spelling of their paths. *)
Definition same (a b : bytes * doc) : Prop :=
  (rooted (fst a) <-> rooted (fst b)) /\ spec_abs (fst a) (d_path (snd a)) = spec_abs (fst b) (d_path (snd b)) /\
  d_dat (snd a) = d_dat (snd b) /\ d_start (snd a) = d_start (snd b) /\ d_end (snd a) = d_end (snd b).
Lemma found_same w p a b : found w p a -> found w p b -> Forall2 same a b.
Proof.
  intros (t & l & E & L & F) (t' & l' & E' & L' & F'). rewrite E in E'. injection E' as <-. rewrite <- (listing_fun _ _ _ L L') in F'. clear -F F'. revert b F'.
  induction F as [|x d l a (C & dat & X & Y1 & Y2 & Y3 & Y4) F IH]; intros b F'; inversion F' as [|? d' ? b' (C' & dat' & X' & Z1 & Z2 & Z3 & Z4) F1]; subst; constructor; [|apply IH, F1].
  unfold same. rewrite C, C', Y1, Z1, Y3, Z3, Y4, Z4. rewrite X in X'. injection X' as X'. rewrite X'. repeat split; auto.
Qed.
Lemma walked_same w paths a b : walked w paths a -> walked w paths b -> Forall2 same a b.
Proof.
  intros (ds & F & ->) (es & F' & ->). revert es F'. induction F as [|p d paths ds A F IH]; intros es F'; inversion F' as [|? e ? es' A' F1]; subst; [constructor|].
  cbn [concat]. apply Forall2_app; [eapply found_same; eassumption|apply IH, F1].
Qed.
Lemma same_fit a b : Forall2 same a b -> docs_fit b -> docs_fit a.
Proof.
  intros F [A B C]. constructor.
  - clear B C. induction F as [|x y a b (R & _ & _ & S1 & S2) F IH]; inversion A as [|? ? (O1 & O2 & O3) A']; subst; constructor; [|apply IH, A']. unfold doc_ok. rewrite S1, S2. tauto.
  - unfold nlen in *. rewrite (Tactics.Forall2_len _ _ _ F). exact B.
  - assert (E : path_room a = path_room b); [|rewrite E; exact C].
    clear -F. induction F as [|x y a b (_ & P & _) F IH]; [reflexivity|]. cbn [path_room]. rewrite P, IH. reflexivity.
Qed.
Lemma same_words u a b wss : Forall2 same a b -> words_of (word_char u) b wss -> words_of (word_char u) a wss.
Proof.
  intros F. revert wss. induction F as [|x y a b (_ & _ & D & _) F IH]; intros wss W; inversion W as [|? ws ? wss' W1 W2]; subst; constructor; [rewrite D; exact W1|apply IH, W2].
Qed.
Lemma same_place a b d : Forall2 same a b -> place_of a d = place_of b d.
Proof.
  intros F. unfold place_of. generalize (N.to_nat (d - 1)) as i. induction F as [|[c x] [c' y] a b (_ & P & _ & S1 & S2) F IH]; intros [|i]; cbn [nth_error]; try reflexivity; [|apply IH].
  cbn [fst snd] in *. rewrite P, S1, S2. reflexivity.
Qed.
Lemma same_frequent H k m n a b wss T es : Forall2 same a b -> frequent H k m n a wss T es -> frequent H k m n b wss T es.
Proof.
  intros F (A & B & C). split; [exact A|]. split; [|exact C]. intros q ds. rewrite B.
  assert (E : map (place_of a) (carriers H k m n 0 wss q) = map (place_of b) (carriers H k m n 0 wss q)) by (apply map_ext; intros d; apply same_place, F).
  rewrite E. reflexivity.
Qed.
Lemma same_paths (P : bytes -> Prop) a b : Forall2 same a b -> paths_are P b -> paths_are P a.
Proof.
  unfold paths_are. induction 1 as [|x y a b (_ & E & _) F IH]; intros Q; inversion Q; subst; constructor; [rewrite E; assumption|auto].
Qed.
Lemma same_refl a : Forall2 same a a.
Proof. induction a; constructor; [|assumption]. unfold same. tauto. Qed.

(** * The options *)
Lemma given_in n os v : given n os = Some v -> In (n, v) os.
Proof.
  induction os as [|[n' v'] os IH]; cbn [given]; [discriminate|]. destruct (given n os) as [x|]; intros E; [right; apply IH; congruence|].
  destruct (list_eq_dec N.eq_dec n' n) as [->|]; [left; congruence|discriminate].
Qed.
Lemma set_integer n d os : valid (fun _ _ => False) index_has os -> index_has (bs n) = Some Integer -> exists z, set_to integer n d os z.
Proof.
  intros V K. unfold set_to. destruct (given (bs n) os) as [v|] eqn:E; [|eauto]. apply given_in, V in E. rewrite K in E. exact E.
Qed.
Lemma set_int64 n d os z : int64 d -> set_to integer n d os z -> int64 z.
Proof. unfold set_to. intros D. destruct (given (bs n) os); [intros (B & _); exact B|intros ->; exact D]. Qed.
Lemma asks_new_take iargs n paths : asks_new iargs n paths ->
  exists s, index_args iargs = Take (MkOpts false (Z.of_nat n) s 10 [], paths) /\ (0 < s)%Z /\ int64 s.
Proof.
  intros (os & s & R & V & A & Hn & Hs & P & Ht & Hc). exists s. split; [|split; [exact P|eapply set_int64; [|exact Hs]; unfold int64; lia]].
  apply C72_index. exists os. cbn [op_add op_shards op_shatters op_seqlen op_cfg]. auto 8.
Qed.
Lemma asks_add_take iargs paths : asks_add iargs paths -> exists o, index_args iargs = Take (o, paths) /\ op_add o = true.
Proof.
  intros (os & R & V & A). destruct (set_integer "n" 4%Z os V eq_refl) as [n Hn]. destruct (set_integer "s" 4%Z os V eq_refl) as [s Hs].
  destruct (set_integer "t" 10%Z os V eq_refl) as [t Ht]. assert (C : exists c, set_to eq "c" [] os c) by (unfold set_to; destruct (given _ _); eauto).
  destruct C as [c Hc]. exists (MkOpts true n s t c). split; [|reflexivity]. apply C72_index. exists os. cbn [op_add op_shards op_shatters op_seqlen op_cfg]. auto 8.
Qed.

(** * Runs *)
Section Runs.
  Variables (u : unicode) (sorted : list N -> list nat) (grow : nat -> nat) (fuse : bool) (wild : float -> Z) (fixed : bool).
  Notation run := (dupi u sorted grow fuse wild fixed).

  (** The runs of index with these options. *)
  Lemma refuses_err w root o : refuses w root o -> exists e, get_indexer (at_dirs w) (at_there w) (at_file w) (at_cwd w) root o = Err e.
  Proof.
    unfold refuses, get_indexer, open_indexer_at, open_indexer_files. destruct (op_add o); [intros [e ->]; exists e; reflexivity|].
    intros [[e ->]|(c & -> & L & T)]; [exists e; reflexivity|]. exists EOther. cbn [bind]. destruct (Z.ltb_spec (cf_numshards c) 0); [lia|]. rewrite T. reflexivity.
  Qed.
  Lemma runs_index_iff w args largs root o paths : main args (at_env w) (at_home w) = RunVerb (bs "index") largs root -> index_args largs = Take (o, paths) ->
    forall st out w', run w args st out w' <->
    (refuses w root o /\ st = 1 /\ out = [] /\ w' = w) \/
    exists x ws docs err dk, get_indexer (at_dirs w) (at_there w) (at_file w) (at_cwd w) root o = Ok (x, ws) /\
      do_paths (fun _ => true) fixed (at_tree w) paths (false, []) = (err, docs) /\
      session u (Ok (x, ws)) (map (pair (at_cwd w)) docs) dk /\
      st = (if err : bool then 1 else 0) /\ out = [] /\ w' = put_index w (cf_root (x_cfg x)) (files_of dk).
  Proof.
    intros M T st out w'. split.
    - intros R. destruct R as [M'|v l' r' st M' S|v l' r' e M' S _|v l' r' ix out st M' _ S|l' r' o' p' M' T' Rf|l' r' o' p' x ws err docs dk M' T' G D Se];
        rewrite M in M'; try discriminate M'; first [injection M' as <- <- <-|injection M' as <- <-].
      + exfalso. destruct S as [[_ S]|[[S _]|[[S _]|[[S _]|[[S _]|[S _]]]]]]; [congruence|discriminate S..].
      + exfalso. destruct S as [[S _]|[[S _]|[[S _]|[[S _]|[S _]]]]]; discriminate S.
      + exfalso. inversion S.
      + rewrite T in T'. injection T' as <- <-. left. auto.
      + rewrite T in T'. injection T' as <- <-. right. exists x, ws, docs, err, dk. auto 7.
    - intros [(Rf & -> & -> & ->)|X]; [eapply dupi_refuses; eassumption|]. destruct X as (x & ws & docs & err & dk & G & D & Se & -> & -> & ->). eapply dupi_index; eassumption.
  Qed.

  (** What is known of the files after a story. *)
  Definition holds (root : bytes) (n : nat) (docs : list (bytes * doc)) (fs : Crash.files) : Prop :=
    exists c ss dk, cfg_full c 1 10 n /\ cfg_values c /\ (0 < cf_numshatters c)%Z /\ history u c ss dk /\ cf_root c = root /\
      fs = files_of dk /\ Forall2 same (all_docs ss) docs.

  Lemma put_here w root fs : at_dirs (put_index w root fs) root = fs.
  Proof. unfold put_index. cbn [at_dirs]. destruct (eq_bytes root root) eqn:E; [reflexivity|]. rewrite (proj2 (eq_bytes_iff root root) eq_refl) in E. discriminate. Qed.
  Lemma put_there w root fs : at_there (put_index w root fs) root = true.
  Proof. unfold put_index. cbn [at_there]. rewrite (proj2 (eq_bytes_iff root root) eq_refl). reflexivity. Qed.
  Lemma put_other w root fs p : p <> root -> at_dirs (put_index w root fs) p = at_dirs w p /\ at_there (put_index w root fs) p = at_there w p.
  Proof. intros N. unfold put_index. cbn [at_dirs at_there]. destruct (eq_bytes p root) eqn:E; [|split; reflexivity]. apply eq_bytes_iff in E. contradiction. Qed.

  Lemma put_only w root fs : only_at root w (put_index w root fs).
  Proof. unfold only_at. split; [reflexivity|]. split; [reflexivity|]. split; [reflexivity|]. split; [reflexivity|]. split; [apply put_there|]. intros p N. apply put_other, N. Qed.

  Lemma create_run w args R iargs n paths docs root :
    command w R "index" iargs args -> asks_new iargs n paths -> (0 < n)%nat -> N.of_nat n < 65536 ->
    root_of w R = root -> at_there w root = false -> text_path root -> walkable w paths -> walked w paths docs -> docs_fit docs ->
    (exists w', run w args 0 [] w') /\
    forall st out w', run w args st out w' -> st = 0 /\ out = [] /\ only_at root w w' /\ holds root n docs (at_dirs w' root).
  Proof.
    intros C A Hn Hb Er Ht Tx Rd Wk Fit. pose proof (command_main _ _ _ _ _ C ltac:(left; reflexivity)) as M.
    destruct (asks_new_take _ _ _ A) as (s & T & Hs & Bs). pose proof (runs_index_iff _ _ _ _ _ _ M T) as RI.
    destruct Rd as (Rt & Rd2). unfold root_of in Er. rewrite <- path_abs_spec in Er by exact Rt.
    destruct (get_indexer_ok (at_dirs w) (at_there w) (at_file w) (at_cwd w) R (Z.of_nat n) s ltac:(lia)) as (x & ws & G & Cr & Ex & _); [rewrite Er; exact Ht|].
    set (c := MkConfig _ _ _ _ _ _ _) in *.
    assert (F : cfg_full c 1 10 n) by (apply opts_full; assumption).
    assert (V : cfg_values c).
    { constructor; unfold int64; cbn [c cf_root cf_token cf_seqlen cf_numshards cf_numshatters cf_flush cf_blot default_blot_config bc_seqlen bc_interleave]; try lia.
      - rewrite Er. exact Tx.
      - exists words_simple. split; [|reflexivity]. repeat constructor.
      - exact Bs. }
    destruct (walk_paths fixed w paths (conj Rt Rd2) []) as (news & Dp & Wk'). cbn [app] in Dp.
    pose proof (walked_same _ _ _ _ Wk' Wk) as Sm. pose proof (same_fit _ _ Sm Fit) as Fit'.
    split.
    - destruct F as [O Hn' Hf]. destruct (history_exists u c 1 10 n O Hn' Hf [map (pair (at_cwd w)) news] ltac:(discriminate) Hs) as [dk H]; [rewrite all_docs_one; exact Fit'|].
      inversion H as [d0 dk0 S0|ss0 dk0 d0 dk1 H0 S0]; subst; [|inversion H0]. rewrite Cr in S0. eexists. apply RI. right. exists x, ws, news, false, dk. auto 7.
    - intros st out w' Rn. apply RI in Rn as [[Rf _]|(x' & ws' & docs' & err & dk & G' & D' & S & -> & -> & ->)]; [exfalso; destruct (refuses_err _ _ _ Rf); congruence|].
      rewrite G in G'. injection G' as <- <-. rewrite Dp in D'. injection D' as <- <-. rewrite Ex. change (cf_root c) with (path_abs (at_cwd w) R). rewrite Er.
      split; [reflexivity|]. split; [reflexivity|]. split; [apply put_only|]. rewrite put_here.
      exists c, [map (pair (at_cwd w)) news], dk. split; [exact F|]. split; [exact V|]. split; [exact Hs|].
      split; [constructor; rewrite Cr; exact S|]. split; [exact Er|]. split; [reflexivity|]. rewrite all_docs_one. exact Sm.
  Qed.

  Lemma add_run w args R iargs n paths docs docs1 root :
    holds root n docs (at_dirs w root) -> command w R "index" iargs args -> asks_add iargs paths -> root_of w R = root ->
    walkable w paths -> walked w paths docs1 -> docs_fit (docs ++ docs1) ->
    (exists w', run w args 0 [] w') /\
    forall st out w', run w args st out w' -> st = 0 /\ out = [] /\ only_at root w w' /\ holds root n (docs ++ docs1) (at_dirs w' root).
  Proof.
    intros (c & ss & dk & F & V & Hs & H & Ec & Ed & Sm) C A Er Rd Wk Fit. pose proof (command_main _ _ _ _ _ C ltac:(left; reflexivity)) as M.
    destruct (asks_add_take _ _ A) as (o & T & Ha). pose proof (runs_index_iff _ _ _ _ _ _ M T) as RI.
    destruct Rd as (Rt & Rd2). unfold root_of in Er. rewrite <- path_abs_spec in Er by exact Rt.
    destruct (in_place u c 1 10 n F V ss dk (at_dirs w) (at_cwd w) R H) with (sorted := sorted) as [_ Eo]; [congruence|congruence|].
    assert (G0 : get_indexer (at_dirs w) (at_there w) (at_file w) (at_cwd w) R o = open_indexer dk) by (unfold get_indexer; rewrite Ha; exact Eo).
    destruct (walk_paths fixed w paths (conj Rt Rd2) []) as (news & Dp & Wk'). cbn [app] in Dp.
    assert (Sm' : Forall2 same (all_docs (map (pair (at_cwd w)) news :: ss)) (docs ++ docs1)) by (rewrite all_docs_cons; apply Forall2_app; [exact Sm|exact (walked_same _ _ _ _ Wk' Wk)]).
    pose proof (same_fit _ _ Sm' Fit) as Fit'.
    pose proof F as [O Hn' Hf]. destruct (words_total u (all_docs ss)) as [w0 W0]. destruct (words_total u (map (pair (at_cwd w)) news)) as [w1 W1].
    rewrite all_docs_cons in Fit'. pose proof (fit_app _ _ Fit') as Fit0.
    destruct (history_inv u c 1 10 n O Hn' Hf _ _ H Fit0 w0 W0) as (fn & fs & D).
    pose proof (df_len _ Fit0) as L. change (2 ^ 32) with 4294967296 in L.
    destruct (open_start u c 1 10 n O Hn' Hf _ _ _ _ _ D ltac:(lia)) as (x & ws & E & I). split.
    - destruct (session_inv u c 1 10 n O Hn' _ x ws _ _ _ _ w1 E I Fit' W0 W1) as (_ & X & _). destruct (X Hs) as [dk' S].
      rewrite E in S. eexists. apply RI. right. exists x, ws, news, false, dk'. rewrite G0. auto 7.
    - intros st out w' Rn. apply RI in Rn as [[Rf _]|(x' & ws' & docs' & err & dk' & G' & D' & S & -> & -> & ->)]; [exfalso; destruct (refuses_err _ _ _ Rf); congruence|].
      rewrite G0 in G'. rewrite E in G'. injection G' as <- <-. pose proof E as G'. rewrite Dp in D'. injection D' as <- <-.
      assert (Ex : x_cfg x = c). { pose proof (open_cfg _ _ _ G') as E1. rewrite (history_cfg _ _ _ _ H) in E1. congruence. }
      rewrite Ex, Ec. split; [reflexivity|]. split; [reflexivity|]. split; [apply put_only|]. rewrite put_here.
      exists c, (map (pair (at_cwd w)) news :: ss), dk'. split; [exact F|]. split; [exact V|]. split; [exact Hs|].
      split; [econstructor; [exact H|rewrite G'; exact S]|]. split; [exact Ec|]. split; [reflexivity|exact Sm'].
  Qed.

  Lemma story_holds root n docs w : story run root n docs w -> holds root n docs (at_dirs w root) /\ docs_fit docs.
  Proof.
    induction 1 as [w args R iargs paths docs st out w' C A Hn Hb Er Ht Tx Rd Wk Fit Rn|docs w w1 args R iargs paths docs1 st out w2 S [IH _] Ed C A Er Rd Wk Fit Rn].
    - split; [|exact Fit]. eapply create_run; eauto.
    - rewrite <- Ed in IH. split; [|exact Fit]. eapply add_run; eauto.
  Qed.
End Runs.
