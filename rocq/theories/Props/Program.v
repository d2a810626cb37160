(** The command dupi from its arguments to its output: C73. *)
From Coq Require Import String QArith Qabs.
From Verif Require Import Model.Base Model.Utf8 Model.Float Model.Blotter Model.Token Model.Index Model.Query Model.Config Model.Crash Model.Root Model.Flags Model.Verbs Model.Walk Model.Program.
From Verif Require Import Spec.Text Spec.Fingerprint Spec.Paths Spec.Tree Spec.Querying Spec.History Spec.Stretch Spec.Hexes Spec.Mean Spec.Printed Spec.Str Spec.Cmdline Spec.Inspected Spec.Program.
From Verif Require Import Proof.Tactics Proof.BlotsP Proof.PathP Proof.TokenP Proof.BlotterP Proof.ShatterP Proof.IndexP Proof.QueryW Proof.SessionP Proof.LikeP Proof.LikeW Proof.StatsP3 Proof.ProgramP Proof.ProgramP2 Proof.ProgramP3 Proof.ProgramP4 Proof.VerbsP Props.Args Props.Verbs.
Local Open Scope N_scope.
Local Open Scope list_scope.

(** C73: "dupi index creates an index of the files under its arguments, or adds them to one,
    and changes nothing else; every later extract, like, blot, unblot or inspect, from any working
    directory and in whichever way the index is named, prints, for the documents given so far,
    what these verbs are for, and changes nothing."

    [story run root n docs w]: the commands so far, the last of which left the world [w],
    created the index at [root] with [n] shards and gave it the documents [docs] (Spec/Program).
    All theorems are about every run of [dupi], with any unicode tables, any order in which
    maps are traversed and equal counts sorted, any growth of slices, fused multiplication or
    not; and they say that there is a run. *)
Section C73.
  Variables (u : unicode) (sorted : list N -> list nat) (grow : nat -> nat) (fuse : bool) (wild : float -> Z) (fixed : bool).
  Notation run := (dupi u sorted grow fuse wild fixed).
  Notation H := (word_hash u).
  Notation word := (word_char u).

  Theorem C73_creates w args R iargs n paths docs root :
    command w R "index" iargs args -> asks_new iargs n paths -> (0 < n)%nat -> N.of_nat n < 65536 ->
    root_of w R = root -> at_there w root = false -> text_path root -> walkable w paths -> walked w paths docs -> docs_fit docs ->
    (exists w', run w args 0 [] w') /\
    forall st out w', run w args st out w' -> st = 0 /\ out = [] /\ only_at root w w' /\ story run root n docs w'.
  Proof.
    intros C A Hn Hb Er Ht Tx Wa Wk Fit. destruct (create_run u sorted grow fuse wild fixed w args R iargs n paths docs root C A Hn Hb Er Ht Tx Wa Wk Fit) as [E X].
    split; [exact E|]. intros st out w' Rn. destruct (X _ _ _ Rn) as (-> & -> & O & _). do 3 (split; [assumption || reflexivity|]). econstructor; eassumption.
  Qed.
  Theorem C73_adds root n docs w w1 args R iargs paths docs1 :
    story run root n docs w -> at_dirs w1 root = at_dirs w root ->
    command w1 R "index" iargs args -> asks_add iargs paths -> root_of w1 R = root ->
    walkable w1 paths -> walked w1 paths docs1 -> docs_fit (docs ++ docs1) ->
    (exists w', run w1 args 0 [] w') /\
    forall st out w', run w1 args st out w' -> st = 0 /\ out = [] /\ only_at root w1 w' /\ story run root n (docs ++ docs1) w'.
  Proof.
    intros St Ed C A Er Wa Wk Fit. destruct (story_holds _ _ _ _ _ _ _ _ _ _ St) as [Hd _]. rewrite <- Ed in Hd.
    destruct (add_run u sorted grow fuse wild fixed w1 args R iargs n paths docs docs1 root Hd C A Er Wa Wk Fit) as [E X].
    split; [exact E|]. intros st out w' Rn. destruct (X _ _ _ Rn) as (-> & -> & O & _). do 3 (split; [assumption || reflexivity|]). econstructor; eassumption.
  Qed.

  (** Not over something that is there, and not without an index. *)
  Theorem C73_refuses_existing w args R iargs n paths :
    command w R "index" iargs args -> asks_new iargs n paths -> rooted (at_cwd w) -> at_there w (root_of w R) = true ->
    forall st out w', run w args st out w' <-> st = 1 /\ out = [] /\ w' = w.
  Proof. apply there_run. Qed.
  Theorem C73_refuses_missing w args R verb vargs :
    command w R verb vargs args -> rooted (at_cwd w) -> w_cfg (at_dirs w (root_of w R)) = None ->
    (verb = "index"%string /\ (exists paths, asks_add vargs paths) \/
     verb = "extract"%string /\ (exists json x only, asks_extract vargs json x only) \/
     verb = "blot"%string /\ (exists offsets files, asks_blot vargs offsets files) \/
     verb = "unblot"%string /\ (exists all blots, asks_unblot vargs all blots) \/
     verb = "like"%string /\ (forall f r, vargs = f :: r -> positional f) \/
     verb = "inspect"%string /\ (exists json, asks_inspect vargs json)) ->
    forall st out w', run w args st out w' <-> st = 1 /\ out = [] /\ w' = w.
  Proof.
    intros C Rt Ht [[-> [p A]]|[[-> (j & x & o & A)]|[[-> (of & fl & A)]|[[-> (al & bl & A)]|[[-> A]|[-> (j & A)]]]]]].
    - eapply none_run; eassumption.
    - eapply unread_run; [exact C| |exact Rt|exact Ht]. left. split; [reflexivity|]. eexists. apply C72_extract. exact A.
    - eapply unread_run; [exact C| |exact Rt|exact Ht]. right; left. split; [reflexivity|]. eexists. apply C72_blot. exact A.
    - eapply unread_run; [exact C| |exact Rt|exact Ht]. right; right; left. split; [reflexivity|]. eexists. apply C72_unblot. exact A.
    - eapply unread_run; [exact C| |exact Rt|exact Ht]. right; right; right; left. split; [reflexivity|]. eexists. apply like_positional. exact A.
    - destruct A as (os & rest & fl & A). eapply unread_run; [exact C| |exact Rt|exact Ht]. right; right; right; right. split; [reflexivity|]. eexists. apply C72_inspect. eauto.
  Qed.

  (** Without a verb status 1, help status 0, wrong options status 2. *)
  Theorem C73_no_verb w args : Forall (fun a => ~ In a verb_names) args -> forall st out w', run w args st out w' <-> st = 1 /\ out = [] /\ w' = w.
  Proof. intros F. apply usage_run, C48_no_verb_usage. exact F. Qed.
  Theorem C73_help w args R verb vargs : command w R verb vargs args -> wants_help verb vargs ->
    forall st out w', run w args st out w' <-> st = 0 /\ out = [] /\ w' = w.
  Proof.
    intros C (flags & os & ws & h & rest & I & X). eapply stop_run.
    - apply (command_main _ _ _ _ _ C). change verb_names with (map (fun p => bs (fst p)) verb_flags). apply (in_map (fun p => bs (fst p)) _ _ I).
    - apply (options_stop verb flags vargs 0 I); [intros _; exists os, ws, h, rest; exact X|congruence].
  Qed.
  Theorem C73_misread w args R verb vargs : command w R verb vargs args -> misread verb vargs -> ~ wants_help verb vargs ->
    forall st out w', run w args st out w' <-> st = 2 /\ out = [] /\ w' = w.
  Proof.
    intros C (flags & I & X) Nh. eapply stop_run.
    - apply (command_main _ _ _ _ _ C). change verb_names with (map (fun p => bs (fst p)) verb_flags). apply (in_map (fun p => bs (fst p)) _ _ I).
    - apply (options_stop verb flags vargs 2 I); [discriminate|]. intros _. split; [reflexivity|]. split; [exact X|].
      intros (os & ws & h & rest & Y). apply Nh. exists flags, os, ws, h, rest. auto.
  Qed.

  Section Asked.
    Variables (root : bytes) (n : nat) (docs : list (bytes * doc)) (w0 w : world) (R : bytes) (wss : list (list bytes)).
    (** After a story, in a world where the index is as it was left, it is asked for by [R]. *)
    Hypothesis Sorts : sorts sorted.
    Hypothesis St : story run root n docs w0.
    Hypothesis Ed : at_dirs w root = at_dirs w0 root.
    Hypothesis Rt : rooted (at_cwd w).
    Hypothesis Er : root_of w R = root.
    Hypothesis Ww : words_of word docs wss.

    Let Hd : holds u root n docs (at_dirs w root).
    Proof. rewrite Ed. apply (story_holds _ _ _ _ _ _ _ _ _ _ St). Qed.
    Let Fit : docs_fit docs.
    Proof. apply (story_holds _ _ _ _ _ _ _ _ _ _ St). Qed.

    (** extract: one output, the blots above a threshold (C32) with their documents. *)
    Theorem C73_extract eargs args json x only : command w R "extract" eargs args -> asks_extract eargs json x only -> moderate (per_blot H 1 10 n wss) x ->
      exists T es out, threshold (per_blot H 1 10 n wss) x T /\ frequent H 1 10 n docs wss T es /\ printed json only docs es out /\
        forall st out' w', run w args st out' w' <-> st = 0 /\ out' = out /\ w' = w.
    Proof. exact (extract_run u sorted grow fuse wild fixed root n docs wss w R Sorts Hd Fit Ww Rt Er eargs args json x only). Qed.

    (** like: for each file the documents alike, in any order. *)
    Theorem C73_like files args : command w R "like" files args -> (forall f r, files = f :: r -> positional f) ->
      all_in_place (at_file w) docs -> Forall (fun f => exists dat, at_file w f = Some dat /\ nlen dat < 2 ^ 32) files ->
      (exists outs, Forall2 (reports H word n docs w) files outs) /\
      forall st out w', run w args st out w' <-> st = 0 /\ w' = w /\ exists outs, Forall2 (reports H word n docs w) files outs /\ out = concat outs.
    Proof. exact (like_run u sorted grow fuse wild fixed root n docs wss w R Sorts Hd Fit Ww Rt Er files args). Qed.

    (** Among them all copies of the file, if it has more than ten words. *)
    Theorem C73_copies f args dat ws i cwd x : command w R "like" [f] args -> positional f -> all_in_place (at_file w) docs ->
      at_file w f = Some dat -> nlen dat < 2 ^ 32 -> doc_words word dat ws -> (10 < List.length ws)%nat ->
      nth_error docs i = Some (cwd, x) -> d_dat x = dat ->
      forall st out w', run w args st out w' ->
        exists a l b, out = a ++ l ++ b /\ shows_place (show_abs (spec_abs cwd (d_path x)), 0, d_end x) l.
    Proof.
      intros C P Ap Ef Ld W Lw Ei <- st out w' Rn.
      destruct (C73_like [f] args C ltac:(intros g r [= <- _]; exact P) Ap ltac:(constructor; [eauto|constructor])) as [_ X].
      apply X in Rn as (-> & -> & outs & Fo & ->). inversion Fo as [|f' t fs' ts (dat' & ps & Ef' & ND & Y & ls & Sh & ->) Fo']; subst. inversion Fo'; subst.
      rewrite Ef in Ef'. injection Ef' as <-. pose proof (copies_alike u n docs i cwd x ws Ei W Lw) as Al. apply Y in Al. destruct (Ap _ _ _ Ei) as (Z & _).
      assert (Ep : place_of docs (N.of_nat (S i)) = (show_abs (spec_abs cwd (d_path x)), 0, d_end x)).
      { unfold place_of. replace (N.to_nat (N.of_nat (S i) - 1)) with i by lia. rewrite Ei, Z. reflexivity. }
      rewrite Ep in Al. destruct (in_split _ _ Al) as (p1 & p2 & E). subst ps. apply Forall2_app_inv_l in Sh as (l1 & l2 & S1 & S2 & ->).
      inversion S2 as [|? l ? l3 Sl S3]; subst. exists (bs "like " ++ f ++ bs ":" ++ [10] ++ concat l1), l, (concat l3 ++ []). split; [|exact Sl].
      cbn [concat]. rewrite !concat_app. cbn [concat]. rewrite !app_nil_r, <- !app_assoc. reflexivity.
    Qed.

    (** blot: the blots of each file, nothing for a file that cannot be read. *)
    Theorem C73_blot bargs files args : command w R "blot" bargs args -> asks_blot bargs false files ->
      (exists outs, Forall2 (fun f t => blots_of H word n w f t \/ at_file w f = None /\ t = []) files outs) /\
      forall st out w', run w args st out w' <-> st = 0 /\ w' = w /\
        exists outs, Forall2 (fun f t => blots_of H word n w f t \/ at_file w f = None /\ t = []) files outs /\ out = concat outs.
    Proof. exact (blot_run u sorted grow fuse wild fixed root n docs wss w R Sorts Hd Fit Ww Rt Er bargs files args). Qed.

    (** blot -offsets: with the ranges of C47. *)
    Theorem C73_blot_offsets bargs files args : command w R "blot" bargs args -> asks_blot bargs true files ->
      Forall (fun f => forall dat, at_file w f = Some dat -> nlen dat < 2 ^ 32) files ->
      (exists outs, Forall2 (fun f t => offsets_of H word n w f t \/ at_file w f = None /\ t = []) files outs) /\
      forall st out w', run w args st out w' <-> st = 0 /\ w' = w /\
        exists outs, Forall2 (fun f t => offsets_of H word n w f t \/ at_file w f = None /\ t = []) files outs /\ out = concat outs.
    Proof. exact (offsets_run u sorted grow fuse wild fixed root n docs wss w R Sorts Hd Fit Ww Rt Er bargs files args). Qed.

    (** inspect: one output, the statistics (C74). *)
    Theorem C73_inspect iargs args json : command w R "inspect" iargs args -> asks_inspect iargs json ->
      let l := per_blot H 1 10 n wss in
      exists mean sigma out, inspected json root n docs (pairs H 1 10 n wss) mean sigma out /\
        (Qabs (mean - average l) <= 2 ^ (-51) * average l /\
         (1 - 2 ^ (-35)) * variance l <= sigma * sigma <= (1 + 2 ^ (-35)) * (variance l + (2 ^ (-51) * average l) * (2 ^ (-51) * average l)))%Q /\
        forall st out' w', run w args st out' w' <-> st = 0 /\ out' = out /\ w' = w.
    Proof. exact (inspect_run u sorted grow fuse wild fixed root n docs wss w R Sorts Hd Fit Ww Rt Er iargs args json). Qed.

    (** unblot: the texts with each blot, in any order. *)
    Theorem C73_unblot uargs all blots args : command w R "unblot" uargs args -> asks_unblot uargs all blots ->
      (forall i, (i < List.length docs)%nat -> readable (at_file w) (place_of docs (N.of_nat (S i)))) ->
      Forall (fun a => exists q, spells a q /\ q < 2 ^ 32) blots ->
      (exists outs, Forall2 (texts_of H word n docs w wss all) blots outs) /\
      forall st out w', run w args st out w' <-> st = 0 /\ w' = w /\ exists outs, Forall2 (texts_of H word n docs w wss all) blots outs /\ out = concat outs.
    Proof. exact (unblot_run u sorted grow fuse wild fixed root n docs wss w R Sorts Hd Fit Ww Rt Er uargs all blots args). Qed.
  End Asked.
End C73.
Print Assumptions C73_creates.
Print Assumptions C73_adds.
Print Assumptions C73_refuses_existing.
Print Assumptions C73_refuses_missing.
Print Assumptions C73_no_verb.
Print Assumptions C73_help.
Print Assumptions C73_misread.
Print Assumptions C73_extract.
Print Assumptions C73_like.
Print Assumptions C73_copies.
Print Assumptions C73_blot.
Print Assumptions C73_unblot.
Print Assumptions C73_blot_offsets.
Print Assumptions C73_inspect.

(** The hypotheses are met: in "/" with the two files "1" and "2",
    - "dupi -r x index 1" makes an index that is not there yet;
    - "dupi -r=/x index -a 2" adds to it;
    - then come "dupi -r x extract", "dupi -r x like 1", "dupi -r x blot 1", "dupi -r x unblot
      a1", "dupi -r x blot -offsets 1" and "dupi -r x inspect -json". *)
Definition ex_tree (p : bytes) : option tree :=
  if existsb (eq_bytes p) (map bs ["1"; "/1"; "2"; "/2"]%string) then Some (Leaf (Reads wit_text1)) else None.
Definition ex_world : world := MkWorld (bs "/") [] None ex_tree (fun _ => false) (fun _ => no_files).
Lemma ex_good p t : ex_tree p = Some t -> t = Leaf (Reads wit_text1).
Proof. unfold ex_tree. destruct (existsb _ _); congruence. Qed.
Lemma ex_listing : listing (Leaf (Reads wit_text1)) [([], Reads wit_text1)].
Proof. constructor. Qed.
Lemma ex_walkable w p : at_cwd w = bs "/" -> (forall q, at_tree w q = ex_tree q) -> p = bs "1" \/ p = bs "2" -> walkable w [p].
Proof.
  intros Ec Et Hp. split; [rewrite Ec; exists []; reflexivity|]. split; [intros q t; rewrite Et; intros E; rewrite (ex_good _ _ E); constructor|].
  intros q [<-|[]]. split.
  - intros (a & n & k & E & (c & r & ->) & _). assert (In 46 p) by (rewrite E; apply in_or_app; right; left; reflexivity). destruct Hp as [-> | ->]; cbn in *; intuition discriminate.
  - exists (Leaf (Reads wit_text1)). split; [rewrite Et; destruct Hp as [-> | ->]; reflexivity|]. split.
    + intros cs _ X. inversion X.
    + intros cs o _ X. inversion X. eauto.
Qed.
Lemma ex_walked w p : at_cwd w = bs "/" -> (forall q, at_tree w q = ex_tree q) -> p = bs "1" \/ p = bs "2" -> walked w [p] [(bs "/", MkDoc p 0 22 wit_text1)].
Proof.
  intros Ec Et Hp. exists [[(bs "/", MkDoc p 0 22 wit_text1)]]. split; [|reflexivity]. constructor; [|constructor].
  exists (Leaf (Reads wit_text1)), [([], Reads wit_text1)]. split; [rewrite Et; destruct Hp as [-> | ->]; reflexivity|]. split; [constructor|].
  constructor; [|constructor]. cbn [fst snd]. split; [congruence|]. exists wit_text1. split; [reflexivity|]. unfold doc_for. rewrite Ec. cbn [d_path d_dat d_start d_end].
  rewrite app_nil_r. do 3 (split; [reflexivity|]). vm_compute. reflexivity.
Qed.
Lemma ex_positional s : (exists c r, s = c :: r /\ c <> 45) -> positional s.
Proof. intros (c & r & -> & N). right. intros r' E. congruence. Qed.
Lemma ex_plain flags p : positional p -> reads_as flags [p] [] [p].
Proof. intros P. exists [], [p]. split; [reflexivity|]. split; [constructor|]. right. split; [reflexivity|]. right. eauto. Qed.
Definition ex_docs : list (bytes * doc) := [(bs "/", MkDoc (bs "1") 0 22 wit_text1); (bs "/", MkDoc (bs "2") 0 22 wit_text1)].
Example C73_example : forall u sorted grow fuse wild fixed, exists w,
  story (dupi u sorted grow fuse wild fixed) (bs "/x") 4 ex_docs w /\ rooted (at_cwd w) /\ root_of w (bs "x") = bs "/x" /\
  words_of (word_char u) ex_docs [wit_words1; wit_words1] /\
  command w (bs "x") "extract" [] [bs "-r"; bs "x"; bs "extract"] /\ asks_extract [] false 2 false /\
  command w (bs "x") "like" [bs "1"] [bs "-r"; bs "x"; bs "like"; bs "1"] /\ positional (bs "1") /\ all_in_place (at_file w) ex_docs /\ at_file w (bs "1") = Some wit_text1 /\
  command w (bs "x") "blot" [bs "1"] [bs "-r"; bs "x"; bs "blot"; bs "1"] /\ asks_blot [bs "1"] false [bs "1"] /\
  command w (bs "x") "unblot" [bs "a1"] [bs "-r"; bs "x"; bs "unblot"; bs "a1"] /\ asks_unblot [bs "a1"] false [bs "a1"] /\
  command w (bs "x") "blot" [bs "-offsets"; bs "1"] [bs "-r"; bs "x"; bs "blot"; bs "-offsets"; bs "1"] /\ asks_blot [bs "-offsets"; bs "1"] true [bs "1"] /\
  command w (bs "x") "inspect" [bs "-json"] [bs "-r"; bs "x"; bs "inspect"; bs "-json"] /\ asks_inspect [bs "-json"] true /\
  (forall i, (i < List.length ex_docs)%nat -> readable (at_file w) (place_of ex_docs (N.of_nat (S i)))) /\ spells (bs "a1") 161.
Proof.
  intros u sorted grow fuse wild fixed.
  assert (P1 : positional (bs "1")) by (apply ex_positional; exists 49, []; split; [reflexivity|discriminate]).
  assert (P2 : positional (bs "2")) by (apply ex_positional; exists 50, []; split; [reflexivity|discriminate]).
  assert (Pa : positional (bs "a1")) by (apply ex_positional; exists 97, [49]; split; [reflexivity|discriminate]).
  assert (Cm : forall w verb rest, command w (bs "x") verb rest (bs "-r" :: bs "x" :: bs verb :: rest)).
  { intros w verb rest. split; [discriminate|]. left. split; [|reflexivity]. vm_compute. intuition discriminate. }
  assert (Rx : rooted (bs "/")) by (exists []; reflexivity).
  destruct (C73_creates u sorted grow fuse wild fixed ex_world [bs "-r"; bs "x"; bs "index"; bs "1"] (bs "x") [bs "1"] 4 [bs "1"] [(bs "/", MkDoc (bs "1") 0 22 wit_text1)] (bs "/x")) as [[w1 R1] X1].
  { apply Cm. }
  { exists [], 4%Z. split; [apply ex_plain, P1|]. split; [intros n v []|]. unfold set_to. cbn [given]. repeat split; reflexivity. }
  { lia. }
  { reflexivity. }
  { reflexivity. }
  { reflexivity. }
  { exists (bs "/x"). apply ascii_text. reflexivity. }
  { apply ex_walkable; [reflexivity|reflexivity|now left]. }
  { apply ex_walked; [reflexivity|reflexivity|now left]. }
  { constructor; [|reflexivity|reflexivity]. constructor; [|constructor]. split; [exact Rx|]. split; reflexivity. }
  destruct (X1 _ _ _ R1) as (_ & _ & (A1 & A2 & A3 & A4 & _) & S1). cbn [ex_world at_cwd at_env at_home at_tree] in A1, A2, A3, A4.
  destruct (C73_adds u sorted grow fuse wild fixed (bs "/x") 4 _ w1 w1 [bs "-r=/x"; bs "index"; bs "-a"; bs "2"] (bs "/x") [bs "-a"; bs "2"] [bs "2"] [(bs "/", MkDoc (bs "2") 0 22 wit_text1)] S1 eq_refl) as [[w2 R2] X2].
  { split; [discriminate|]. right. left. reflexivity. }
  { exists [(bs "a", bs "true")]. split; [|split].
    - exists [bs "-a"], [bs "2"]. split; [reflexivity|]. split; [|right; split; [reflexivity|]; right; exists (bs "2"), []; split; [reflexivity|exact P2]].
      change [bs "-a"] with ([bs "-" ++ bs "a"] ++ []). constructor; [|constructor]. apply w_alone; [reflexivity|now left].
    - intros n v [[= <- <-]|[]]. exists true. vm_compute. tauto.
    - vm_compute. tauto. }
  { unfold root_of. rewrite A1. reflexivity. }
  { apply ex_walkable; [exact A1|exact A4|now right]. }
  { apply ex_walked; [exact A1|exact A4|now right]. }
  { constructor; [|reflexivity|reflexivity]. constructor; [split; [exact Rx|split; reflexivity]|]. constructor; [|constructor]. split; [exact Rx|]. split; reflexivity. }
  destruct (X2 _ _ _ R2) as (_ & _ & (B1 & B2 & B3 & B4 & _) & S2).
  assert (Ec : at_cwd w2 = bs "/") by congruence. assert (Et : forall p, at_tree w2 p = ex_tree p) by (intros p; rewrite B4; apply A4).
  assert (Ip : all_in_place (at_file w2) ex_docs).
  { intros i cwd x E. assert (Hi : i = 0%nat \/ i = 1%nat) by (destruct i as [|[|i]]; auto; destruct i; discriminate E).
    destruct Hi as [-> | ->]; injection E as <- <-; (split; [reflexivity|split; [reflexivity|]]); exists wit_text1, [], []; unfold at_file; rewrite Et, !app_nil_r;
      (split; [reflexivity|split; [reflexivity|right; split; [reflexivity|split; [reflexivity|split; reflexivity]]]]). }
  exists w2. split; [exact S2|]. split; [rewrite Ec; exact Rx|]. split; [unfold root_of; rewrite Ec; reflexivity|]. split.
  { pose proof (wit_words u) as W. inversion W as [|? ? ? ? W1 W']; subst. constructor; [exact W1|constructor; [exact W1|constructor]]. }
  split; [apply Cm|]. split.
  { exists [], []. split; [exists [], []; split; [reflexivity|]; split; [constructor|]; right; split; [reflexivity|]; now left|]. split; [intros n v []|].
    unfold set_to. cbn [given]. repeat split; reflexivity. }
  split; [apply Cm|]. split; [exact P1|]. split; [exact Ip|]. split; [unfold at_file; rewrite Et; reflexivity|].
  split; [apply Cm|]. split; [exists []; split; [apply ex_plain, P1|]; split; [intros n v []|reflexivity]|].
  split; [apply Cm|]. split; [exists []; split; [apply ex_plain, Pa|]; split; [intros n v []|reflexivity]|].
  split; [apply Cm|]. split.
  { exists [(bs "offsets", bs "true")]. split; [|split].
    - exists [bs "-offsets"], [bs "1"]. split; [reflexivity|]. split; [|right; split; [reflexivity|]; right; exists (bs "1"), []; split; [reflexivity|exact P1]].
      change [bs "-offsets"] with ([bs "-" ++ bs "offsets"] ++ []). constructor; [|constructor]. apply w_alone; [reflexivity|now left].
    - intros n v [[= <- <-]|[]]. exists true. vm_compute. tauto.
    - vm_compute. tauto. }
  split; [apply Cm|]. split.
  { exists [(bs "json", bs "true")], [], false. split; [|split].
    - exists [bs "-json"], []. split; [reflexivity|]. split; [|right; split; [reflexivity|]; now left].
      change [bs "-json"] with ([bs "-" ++ bs "json"] ++ []). constructor; [|constructor]. apply w_alone; [reflexivity|now left].
    - intros n v [[= <- <-]|[]]. exists true. vm_compute. tauto.
    - vm_compute. tauto. }
  split.
  { intros i L. assert (E : exists cwd x, nth_error ex_docs i = Some (cwd, x)) by (destruct (nth_error ex_docs i) as [[cwd x]|] eqn:E; [eauto|]; apply nth_error_None in E; lia).
    destruct E as (cwd & x & E). destruct (Ip _ _ _ E) as (Z & Lx & If). right. exists (d_dat x). split; [exact If|].
    unfold place_of. replace (N.to_nat (N.of_nat (S i) - 1)) with i by lia. rewrite E. cbn [fits32]. rewrite Z. exact Lx. }
  change (bs "a1") with ([97] ++ [49]). change 161 with (16 * 10 + 1). constructor; [constructor; left; reflexivity|left; reflexivity].
Qed.
(** "dupi index -help" and "dupi index -n x". *)
Example C73_stops_example : wants_help "index" [bs "-help"] /\ misread "index" [bs "-n"; bs "x"] /\ ~ wants_help "index" [bs "-n"; bs "x"].
Proof.
  split.
  { exists index_has, [], [], (bs "-help"), []. split; [now left|]. split; [reflexivity|]. split; [constructor|]. split; [intros n v []|].
    exists (bs "-"), (bs "help"). split; [now left|]. split; [now right|]. split; [reflexivity|]. left. reflexivity. }
  assert (E : take index_flags [bs "-n"; bs "x"] (fun _ _ => tt) = Exit 2) by reflexivity. split.
  - exists index_has. split; [now left|]. intros os rest Rd V.
    assert (T : take index_flags [bs "-n"; bs "x"] (fun _ _ => tt) = Take tt); [|rewrite E in T; discriminate T].
    apply (take_iff index_flags index_has _ (fun _ _ => tt) (fun _ _ _ => True) tt index_names index_hass); [intros ? ? ? []; tauto|]. exists os, rest. auto.
  - intros (flags & os & ws & h & rest & I & X). repeat (destruct I as [I|I]; [try discriminate I|]); [|destruct I].
    injection I as <-.
    assert (T : take index_flags [bs "-n"; bs "x"] (fun _ _ => tt) = Exit 0); [|rewrite E in T; discriminate T].
    apply (take_help index_flags index_has _ _ index_names index_hass). exists os, ws, h, rest. exact X.
Qed.
