(** dupenron as a whole. *)
From Coq Require Import Lia.
From Verif Require Import Model.Base Model.Utf8 Model.Token Model.Blotter Model.Post Model.Poster Model.Shatter Model.Shard Model.Dmd Model.Fnames Model.Conc Model.Config Model.Json Model.Run Model.Index Model.Query Model.Session Model.Crash Model.Csv Model.Enron Model.EnronMain.
From Verif Require Import Spec.Configs Spec.History Spec.Csv Proof.Tactics Proof.CsvP Proof.ConcRun Proof.SessionP Proof.CrashP Proof.CrashP2.
Local Open Scope N_scope.

Lemma o_loop_text n : forall r w, o_loop n r w = buf_write w (concat (map (fun p => write_record (fst p) (snd p)) (firstn n (fst (csv_records r))))).
Proof.
  induction n as [|n IH]; intros r w; [reflexivity|]. cbn [o_loop]. rewrite records_step. fold (record r).
  pose proof (record_total (S (length r)) r (Nat.lt_succ_diag_r _)) as T. fold (record r) in T.
  destruct T as [a b rest L| |]; try reflexivity. rewrite IH. destruct (csv_records rest) as [rcds e]. cbn [fst firstn map concat]. rewrite buf_app. reflexivity.
Qed.

(** Before Close. *)
Lemma before_close {W D P S} (work : W -> N -> D -> result (W * list (list P))) (absorb : S -> P -> S) st0 st :
  steps work absorb st0 st -> s_main st0 = MRun -> s_main st <> MRun ->
  exists st1, steps work absorb st0 st1 /\ s_main st1 = MRun /\ Forall client_done (s_clients st1).
Proof.
  induction 1 as [st0|st0 st2 st3 Ss IH St]; intros E0 E3; [congruence|].
  assert (Dec : s_main st2 = MRun \/ s_main st2 <> MRun) by (destruct (s_main st2); [left; reflexivity|right; discriminate|right; discriminate]).
  destruct Dec as [E2|E2]; [|exact (IH E0 E2)]. exists st2. split; [exact Ss|]. split; [exact E2|].
  destruct St; try assumption; cbn in E3; congruence.
Qed.
Lemma serving_all (vs : list (server (P := post) (S := shard))) old : length vs = length old ->
  exists sh, shards_at serving vs old sh.
Proof.
  revert old. induction vs as [|v vs IH]; intros [|o old] L; try discriminate; [exists []; exact Logic.I|].
  injection L as L. destruct (IH old L) as [sh Sh]. exists ((fst o, Some (x_file (v_shard v))) :: sh). split; [constructor|exact Sh].
Qed.
Lemma servers_length {W D P S} (work : W -> N -> D -> result (W * list (list P))) (absorb : S -> P -> S) st0 st :
  steps work absorb st0 st -> length (s_servers st) = length (s_servers st0) /\ length (s_clients st) = length (s_clients st0).
Proof.
  assert (Ul : forall A i (x : A) l, length (upd i x l) = length l).
  { intros A i x l. revert i. induction l as [|y l IH]; intros [|i]; cbn [upd length]; try reflexivity. rewrite IH. reflexivity. }
  induction 1 as [|st0 st2 st3 Ss IH St]; [split; reflexivity|]. rewrite <- (proj1 IH), <- (proj2 IH).
  destruct St; cbn; rewrite ?Ul; split; reflexivity.
Qed.
Lemma abandoned_exists u c k m n docs : cfg_full c k m n -> (0 < cf_numshatters c)%Z -> docs_fit docs -> exists fs, abandoned u c docs fs.
Proof.
  intros [O Hn Hfl] Hsh Fit. destruct (create_start u c k m n O Hn Hfl) as (x & ws & E & I). destruct (words_total u docs) as [w1 W1].
  destruct (session_inv u c k m n O Hn _ x ws [] [] [] docs w1 E I Fit (Forall2_nil _) W1) as (_ & _ & (fn & dm & Ed) & La).
  pose proof (xi_cfg _ _ _ _ _ _ _ _ _ _ I) as Xc. pose proof (df_len _ Fit) as L1. change (2 ^ 32) with 4294967296 in L1.
  destruct (completes u c k m n ws (nlen (@nil (bytes * doc))) (requests docs) (x_shards x) O) as (st & St & Fi); auto.
  { change (2 ^ 32) with 4294967296. clear - Hn. lia. } { apply (xi_ws _ _ _ _ _ _ _ _ _ _ I). }
  { change (2 ^ 32) with 4294967296. unfold requests, nlen in *. rewrite map_length. cbn [length]. clear - L1. lia. }
  { apply (xi_shards _ _ _ _ _ _ _ _ _ _ I). }
  destruct Fi as (_ & Em & _). rewrite <- La, <- Xc in St.
  destruct (before_close _ _ _ _ St) as (st1 & St1 & Em1 & Cd); [reflexivity|rewrite Em; discriminate|].
  destruct (servers_length _ _ _ _ St1) as [Ls Lc]. cbn [session_start init s_servers s_clients map length] in Lc.
  assert (Ls' : length (s_servers st1) = length (repeat new_shard_files (Z.to_nat (cf_numshards c)))).
  { rewrite Ls. unfold session_start, init. cbn [s_servers]. rewrite map_length, repeat_length, (xi_shards _ _ _ _ _ _ _ _ _ _ I), (co_shards _ _ _ _ O), Nat2Z.id. reflexivity. }
  destruct (serving_all _ _ Ls') as [sh Sh].
  destruct (s_clients st1) as [|[rq dl] [|? ?]] eqn:Ec; try discriminate. inversion Cd as [|? ? [C1 C2] _]; subst. cbn [cl_send cl_docs] in *. subst.
  exists (MkFiles None (snd dm) None sh). econstructor; eauto.
Qed.

Lemma abandoned_fails u c docs fs : abandoned u c docs fs -> forall sorted dirs, dirs (cf_root c) = fs ->
  (exists e, open_files sorted dirs (cf_root c) = Err e) /\ (exists e, open_indexer_files dirs (cf_root c) = Err e).
Proof.
  intros [x ws st fn dm ids req sh Ex Ed St Em Ec Sh] sorted dirs D. unfold open_files, open_indexer_files. rewrite D. cbn [w_cfg Json.read_config bind]. split; eexists; reflexivity.
Qed.

Lemma enron_fit cwd fname rcds offset : Spec.Paths.rooted cwd -> nlen rcds < 2 ^ 32 - 1 ->
  nlen rcds * nlen (Spec.Paths.show_abs (Spec.Paths.spec_abs cwd fname)) < 2 ^ 32 - 1 ->
  docs_fit (map (pair cwd) (enron_docs fname offset rcds)).
Proof.
  intros R L P.
  assert (Ll : forall rcds offset, nlen (map (pair cwd) (enron_docs fname offset rcds)) = nlen rcds).
  { clear. induction rcds as [|[a b] r IH]; intros o; [reflexivity|]. cbn [enron_docs]. unfold enron_doc. cbn [map]. unfold nlen in *. cbn [length].
    rewrite !Nat2N.inj_succ. f_equal. apply IH. }
  constructor.
  - clear L P Ll. revert offset. induction rcds as [|[a b] r IH]; intros offset; [constructor|]. cbn [enron_docs]. unfold enron_doc. cbn [map]. constructor; [|apply IH].
    split; [exact R|]. cbn [snd d_start d_end]. unfold add32, u32. split; apply N.mod_lt; discriminate.
  - rewrite Ll. exact L.
  - assert (E : path_room (map (pair cwd) (enron_docs fname offset rcds)) = nlen rcds * nlen (Spec.Paths.show_abs (Spec.Paths.spec_abs cwd fname))); [|rewrite E; exact P].
    clear. revert offset. induction rcds as [|[a b] r IH]; intros offset; [reflexivity|]. cbn [enron_docs]. unfold enron_doc. cbn [map path_room fst snd d_path]. rewrite IH.
    unfold nlen. cbn [length]. lia.
Qed.
