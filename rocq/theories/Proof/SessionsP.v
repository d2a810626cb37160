(** What the files of an index depend on. *)
From Coq Require Import Lia.
From Verif Require Import Model.Base Model.Utf8 Model.Token Model.Varint Model.Path Model.Blotter Model.Post Model.Poster Model.Shatter Model.Shard Model.Dmd Model.Fnames Model.Conc Model.Config Model.Run Model.Index Model.Query Model.Session.
From Verif Require Import Spec.Text Spec.Fingerprint Spec.Configs Spec.Posting Spec.Postings Spec.Paths Spec.Reading Spec.Querying Spec.History Spec.Sessions.
From Verif Require Import Proof.Tactics Proof.VarintP Proof.PathP Proof.TokenP Proof.BlotterP Proof.ShatterP Proof.IndexP2 Proof.DmdP Proof.FnamesP Proof.FnamesP2 Proof.PosterP Proof.ShardP Proof.ConcP Proof.ConcRun Proof.QueryP Proof.SessionP.
Local Open Scope N_scope.

Lemma skel_write d d' : skel d = skel d' -> fn_write d = fn_write d'.
Proof.
  intros E. assert (L : length d = length d') by (rewrite <- (skel_length d), E, skel_length; reflexivity).
  unfold fn_write, fn_writes. cbn [concat]. unfold nlen. rewrite L. do 3 f_equal.
  assert (G : forall d, map fname_writes d = map (fun p => [put_uvarint (u32 (nlen (snd p))); snd p; put_uvarint (fst p)]) (skel d)).
  { intros e. unfold skel. rewrite map_map. reflexivity. }
  rewrite !G, E. reflexivity.
Qed.

Lemma doc_ids_equiv docs : forall fn fn' dm dm' all e q ids, wf fn -> wf fn' -> skel fn = skel fn' -> nlen fn + path_room docs < 4294967296 ->
  Forall doc_ok docs -> dmd_inv all dm -> dmd_inv all dm' -> nlen all + nlen docs <= 4294967296 -> doc_ids fn dm docs = Ok (e, q, ids) ->
  exists e' q' all', doc_ids fn' dm' docs = Ok (e', q', ids) /\ skel e = skel e' /\ wf e /\ wf e' /\ dmd_inv all' q /\ dmd_inv all' q' /\
    nlen all' = nlen all + nlen docs.
Proof.
  induction docs as [|[cwd d] docs IH]; intros fn fn' dm dm' all e q ids W W' S R O I I' L E; cbn [doc_ids] in *.
  - assert (e = fn) as -> by congruence. assert (q = dm) as -> by congruence. assert (ids = []) as -> by congruence.
    exists fn', dm', all. unfold nlen. cbn [length]. repeat (split; [auto|]). lia.
  - inversion O as [|? ? (O1 & O2 & O3) O']; subst. cbn [path_room fst snd] in *. unfold nlen in L. cbn [length] in L.
    unfold doc2id in *. destruct (add_path_spec cwd fn (d_path d) O1 W) as (fn1 & fid & E1 & W1 & X1 & P1 & L1); [cbn [room1]; lia|]. cbn [room1] in L1.
    assert (B : nlen fn + nlen (path_parts (path_abs cwd (d_path d))) < 4294967296 /\ Forall (fun p => nlen p < 4294967296) (path_parts (path_abs cwd (d_path d)))).
    { rewrite path_abs_spec, path_parts_show by (exact O1 || apply spec_abs_ok).
      destruct (parts_of_bounds cwd (d_path d) (nlen (show_abs (spec_abs cwd (d_path d))))); [lia|lia|]. split; [lia|assumption]. }
    destruct (add_parts_equiv (path_parts (path_abs cwd (d_path d))) fn fn' 0 [] fn1 fid W W' S (IP0 _) (proj1 B) (proj2 B) E1) as (fn1' & E1' & S1 & _ & W1').
    rewrite E1 in E. unfold add_path at 1. rewrite E1'. cbn [bind] in *.
    destruct (adder_add_inv all dm (MkFields fid (d_start d) (d_end d))) as [I1 Id]; [unfold nlen; lia|exact I|].
    destruct (adder_add_inv all dm' (MkFields fid (d_start d) (d_end d))) as [I1' Id']; [unfold nlen; lia|exact I'|].
    destruct (adder_add dm (MkFields fid (d_start d) (d_end d))) as [dm1 did]. destruct (adder_add dm' (MkFields fid (d_start d) (d_end d))) as [dm1' did'].
    cbn [fst snd bind] in *. rewrite Id' , <- Id.
    destruct (doc_ids fn1 dm1 docs) as [[[e1 q1] ids1]| | |] eqn:E2; cbn [bind] in E; try discriminate.
    destruct (IH fn1 fn1' dm1 dm1' (all ++ [MkFields fid (d_start d) (d_end d)]) e1 q1 ids1 W1 W1' S1 ltac:(lia) O' I1 I1') as (e' & q' & all' & E2' & S2 & We & We' & J & J' & La); [|exact E2|].
    { unfold nlen. rewrite app_length. cbn [length]. lia. }
    rewrite E2'. cbn [bind]. assert (e = e1) as -> by congruence. assert (q = q1) as -> by congruence.
    exists e', q', all'. split; [|repeat (split; [auto|])].
    + do 2 f_equal. congruence.
    + rewrite La, ?Id. unfold nlen. rewrite app_length. cbn [length]. lia.
Qed.
Lemma doc_ids_app a : forall fn dm b, doc_ids fn dm (a ++ b) = (do! (fn, dm, i) <- doc_ids fn dm a; do! (fn, dm, j) <- doc_ids fn dm b; Ok (fn, dm, i ++ j)).
Proof.
  induction a as [|[cwd d] a IH]; intros fn dm b; cbn [app doc_ids bind].
  - destruct (doc_ids fn dm b) as [[[? ?] ?]| | |]; reflexivity.
  - destruct (doc2id fn dm cwd d) as [[[fn1 dm1] i]| | |]; cbn [bind]; [|reflexivity..]. rewrite IH.
    destruct (doc_ids fn1 dm1 a) as [[[fn2 dm2] is]| | |]; cbn [bind]; [|reflexivity..].
    destruct (doc_ids fn2 dm2 b) as [[[fn3 dm3] js]| | |]; reflexivity.
Qed.
(** Two adders with the same records. *)
Lemma close_same all dm dm' : all <> [] -> nlen all < 4294967296 -> dmd_inv all dm -> dmd_inv all dm' -> adder_close dm = adder_close dm'.
Proof.
  intros N L I I'. apply adder_close_inv in I; [|exact L]. apply adder_close_inv in I'; [|exact L].
  rewrite (file_bytes_some _ _ I N), (file_bytes_some _ _ I' N). reflexivity.
Qed.

(** Flushing a shard that has nothing to flush. *)
Lemma flush_ind_none n : forall i x, flushed x -> fst (flush_ind_w n i x) = x.
Proof.
  induction n as [|n IH]; intros i x F; cbn [flush_ind_w]; [reflexivity|].
  destruct (nth_error (x_ind x) i) as [po|] eqn:E; [|reflexivity].
  pose proof F as F'. unfold flushed in F'. rewrite Forall_forall in F'. specialize (F' po (nth_error_In _ _ E)).
  unfold flush_to. rewrite F'. cbn [apply_wops fold_left].
  assert (U : upd i po (x_ind x) = x_ind x).
  { clear -E. revert i E. induction (x_ind x) as [|y l IHl]; intros [|i] E; cbn [nth_error upd] in *; try discriminate.
    - congruence.
    - f_equal. apply IHl, E. }
  rewrite U. replace (MkShard (x_ind x) (x_file x)) with x by (destruct x; reflexivity).
  specialize (IH (S i) x F). destruct (flush_ind_w n (S i) x) as [x2 ws2]. exact IH.
Qed.
Lemma close_none x : flushed x -> shard_close x = (iix_bytes (x_ind x), x_file x).
Proof. intros F. unfold shard_close, flush_ind. rewrite flush_ind_none by exact F. reflexivity. Qed.
Lemma create_flushed : flushed shard_create.
Proof. unfold flushed, shard_create. cbn [x_ind]. apply Forall_forall. intros p Hp. apply repeat_spec in Hp. subst p. reflexivity. Qed.

(** The same shards if what is closed is opened again. *)
Lemma for_shards_same {A} (f : bytes -> bytes -> result A) n (files : list (bytes * bytes)) (ys : list A) : for_shards f n files = Ok ys ->
  length files = n -> length ys = n /\ forall j p y, nth_error files j = Some p -> nth_error ys j = Some y -> f (fst p) (snd p) = Ok y.
Proof.
  revert files ys. induction n as [|n IH]; intros files ys E L; cbn [for_shards] in E.
  - assert (ys = []) as -> by congruence. split; [reflexivity|]. intros [|j] p y _ C; discriminate.
  - destruct files as [|[iix pos] files]; [discriminate|]. cbn [length] in L.
    destruct (f iix pos) as [x| | |] eqn:Ex; cbn [bind] in E; try discriminate.
    destruct (for_shards f n files) as [xs| | |] eqn:Es; cbn [bind] in E; try discriminate.
    assert (ys = x :: xs) as -> by congruence. destruct (IH files xs Es ltac:(lia)) as (Lx & X). split; [cbn [length]; lia|].
    intros [|j] p y Ep Ey; cbn [nth_error] in *; [|eauto]. assert (p = (iix, pos)) as -> by congruence. assert (y = x) as -> by congruence. exact Ex.
Qed.

Section S.
  Variables (u : unicode) (k m n : nat).
  Hypothesis Hn : N.of_nat n < 65536.
  Notation posts j last wss := (posts_for (word_hash u) k m n j last wss).

  (** The shards after a session, from those before it. *)
  Lemma session_shards c start x ws docs0 wss0 fs0 docs wss dk : cfg_ok c k m n -> start = Ok (x, ws) -> start_inv u c k m n docs0 wss0 fs0 x ws ->
    docs_fit (docs0 ++ docs) -> words_of (word_char u) docs0 wss0 -> words_of (word_char u) docs wss -> session u start docs dk ->
    length (k_shards dk) = n /\ k_cfg dk = Some c /\
    (forall j s0 f, nth_error (x_shards x) j = Some s0 -> nth_error (k_shards dk) j = Some f -> f = shard_close (serve_batch s0 (posts j (nlen docs0) wss))) /\
    exists fn dm ids, doc_ids (x_fnames x) (x_dmds x) docs = Ok (fn, dm, ids) /\ k_dmd dk = adder_close dm /\ k_fnames dk = Some (fn_write fn).
  Proof.
    intros O Est I Fit W0 W1 S. pose proof (df_len _ Fit) as FL. change (2 ^ 32) with 4294967296 in *. unfold nlen in FL. rewrite app_length in FL.
    destruct (session_inv u c k m n O Hn start x ws docs0 wss0 fs0 docs wss Est I Fit W0 W1) as (_ & _ & _ & Last).
    destruct (cfg_nat _ _ _ _ O) as (En & Es & Hk & Hm & Hn0).
    destruct (start_workers_good u c k m n ws O (xi_ws _ _ _ _ _ _ _ _ _ _ I)) as (Gw & Lw).
    assert (Lr : length (requests docs) = length docs) by apply map_length.
    assert (Hl' : nlen docs0 + nlen (requests docs) < 4294967295) by (unfold nlen; lia).
    inversion S as [x' ws' fn' dm' ids st j Es' Ed Est' Em Edk]. rewrite Est in Es'.
    assert (x' = x) as -> by congruence. assert (ws' = ws) as -> by congruence. clear Es'.
    rewrite (xi_cfg _ _ _ _ _ _ _ _ _ _ I) in *. rewrite Last in Est'. unfold session_steps, session_start in Est'. rewrite En, Es in Est'.
    destruct (run_prefix serve_post u k m n Hk Hm Hn0 ltac:(lia) (requests docs) wss (nlen docs0) ws (x_shards x) Gw (xi_shards _ _ _ _ _ _ _ _ _ _ I) Hl'
      (words_of_requests _ _ _ W1) st Est') as (Lsv & _).
    destruct (run_complete serve_post u k m n Hk Hm Hn0 ltac:(lia) (requests docs) wss (nlen docs0) ws (x_shards x) Gw (xi_shards _ _ _ _ _ _ _ _ _ _ I) Hl'
      (words_of_requests _ _ _ W1) st j Est' Em) as (_ & Y).
    cbn [k_shards k_cfg k_dmd k_fnames]. split; [rewrite !map_length; exact Lsv|]. split; [reflexivity|]. split; [|eauto 8].
    intros i s0 f E0 Ef. rewrite !nth_error_map in Ef. destruct (nth_error (s_servers st) i) as [v|] eqn:Ev; [|discriminate].
    cbn [option_map] in Ef. rewrite (Y i v s0 Ev E0) in Ef. unfold serve_batch. congruence.
  Qed.

  (** What opening the files gives back. *)
  Lemma open_shards c docs wss fn fs dk x ws : cfg_ok c k m n -> (1 <= cf_flush c)%Z -> disk_inv u c k m n docs wss fn fs dk -> nlen docs < 4294967295 -> open_indexer dk = Ok (x, ws) ->
    start_inv u c k m n docs wss fs x ws /\ for_shards shard_append n (k_shards dk) = Ok (x_shards x) /\ skel (x_fnames x) = skel fn /\
    snd (x_dmds x) = k_dmd dk /\ a_buf (fst (x_dmds x)) = [] /\
    forall j f s, nth_error (k_shards dk) j = Some f -> nth_error (x_shards x) j = Some s -> flushed s /\ f = (iix_bytes (x_ind s), x_file s).
  Proof.
    intros O Hfl D L E. destruct (open_start u c k m n O Hn Hfl docs wss fn fs dk D L) as (x' & ws' & E' & I).
    assert (x' = x) as -> by congruence. assert (ws' = ws) as -> by congruence. split; [exact I|]. clear E'.
    pose proof (recs_len _ _ _ (di_recs _ _ _ _ _ _ _ _ _ _ D)) as Lf. unfold open_indexer, read_config in E. rewrite (di_cfg _ _ _ _ _ _ _ _ _ _ D), (check_ok c k m n O Hn) in E. cbn [bind] in E.
    rewrite (numshards_pos c k m n O Hn), (di_dmd _ _ _ _ _ _ _ _ _ _ D) in E.
    destruct (new_adder_reopen (cf_flush c) fs Hfl) as (a & Ea & _ & Eb & _); [unfold nlen in *; lia|]. rewrite Ea in E. cbn [bind] in E.
    rewrite (di_fnames _ _ _ _ _ _ _ _ _ _ D) in E. cbn [read_some] in E.
    destruct (reload_spec fn (di_wf _ _ _ _ _ _ _ _ _ _ D)) as (fn' & E1 & W1 & S1). rewrite E1 in E. cbn [bind] in E. rewrite (token_ok c k m n O) in E. cbn [bind] in E.
    rewrite (co_shards _ _ _ _ O), Nat2Z.id in E. destruct (for_shards shard_append n (k_shards dk)) as [xs| | |] eqn:E2; cbn [bind] in E; try discriminate.
    destruct (start_workers c) as [w| | |]; cbn [bind] in E; try discriminate.
    assert (x = MkIndexer c (a, dmd_file fs) fn' xs) as -> by congruence. cbn [x_shards x_fnames x_dmds fst snd].
    split; [reflexivity|]. split; [exact S1|]. split; [symmetry; apply (di_dmd _ _ _ _ _ _ _ _ _ _ D)|]. split; [exact Eb|].
    intros j f s Ef Es. destruct (for_shards_same _ _ _ _ E2 (di_shards _ _ _ _ _ _ _ _ _ _ D)) as (_ & X). specialize (X j f s Ef Es).
    destruct (di_closed _ _ _ _ _ _ _ _ _ _ D j _ Ef) as (y & log & J & F & Sz & Ey). rewrite Ey in X |- *. cbn [fst snd] in X.
    rewrite (shard_append_spec y log _ J F Sz) in X. assert (s = y) as -> by congruence. split; [exact F|reflexivity].
  Qed.

  (** A session that adds nothing. *)
  Lemma idle_session c ss dk dk' : cfg_full c k m n -> history u c ss dk -> docs_fit (all_docs ss) -> session u (open_indexer dk) [] dk' -> dk' = dk.
  Proof.
    intros F Hi Fit S. destruct F as [O _ Hfl]. destruct (words_total u (all_docs ss)) as [wss W].
    destruct (history_inv u c k m n O Hn Hfl ss dk Hi Fit wss W) as (fn & fs & D).
    pose proof (df_len _ Fit) as FL. change (2 ^ 32) with 4294967296 in *.
    destruct (open_start u c k m n O Hn Hfl _ wss fn fs dk D ltac:(lia)) as (x & ws & E & _).
    destruct (open_shards c _ wss fn fs dk x ws O Hfl D ltac:(lia) E) as (I & _ & Sk & Ed & Eb & X).
    destruct (session_shards c _ x ws (all_docs ss) wss fs [] [] dk' O E I) as (Ls & Ec & Y & fn1 & dm1 & ids & E1 & Dm & Fn); auto.
    { rewrite app_nil_r. exact Fit. } { constructor. }
    cbn [doc_ids] in E1. assert (fn1 = x_fnames x) as -> by congruence. assert (dm1 = x_dmds x) as -> by congruence. clear E1.
    rewrite (skel_write _ _ Sk), <- (di_fnames _ _ _ _ _ _ _ _ _ _ D) in Fn.
    assert (Dm' : k_dmd dk' = k_dmd dk).
    { rewrite Dm. destruct (x_dmds x) as [a file]. cbn [fst snd] in *. unfold adder_close. rewrite Eb. exact Ed. }
    rewrite <- (di_cfg _ _ _ _ _ _ _ _ _ _ D) in Ec. pose proof (di_shards _ _ _ _ _ _ _ _ _ _ D) as Ls0. pose proof (xi_shards _ _ _ _ _ _ _ _ _ _ I) as Lx.
    assert (Sh : k_shards dk' = k_shards dk).
    { apply nth_error_ext'. intros j. destruct (nth_error (k_shards dk') j) as [f'|] eqn:Ef'.
      - pose proof (nth_len _ _ _ Ef') as Lj. destruct (nth_ex (k_shards dk) j) as [f Ef]; [lia|]. destruct (nth_ex (x_shards x) j) as [s Es]; [lia|].
        rewrite Ef. destruct (X j f s Ef Es) as [Fl ->]. rewrite (Y j s f' Es Ef'). cbn [posts_for]. unfold serve_batch. cbn [fold_left]. rewrite close_none by exact Fl. reflexivity.
      - apply nth_error_None in Ef'. symmetry. apply nth_error_None. lia. }
    clear -Ec Dm' Fn Sh. destruct dk as [a1 a2 a3 a4], dk' as [b1 b2 b3 b4]. cbn [k_cfg k_dmd k_fnames k_shards] in *. congruence.
  Qed.

  (** A session in an index without documents is like a creating one. *)
  Lemma idle_creation c dk docs dk' : cfg_full c k m n -> session u (create_indexer c) [] dk -> docs_fit docs -> session u (open_indexer dk) docs dk' ->
    session u (create_indexer c) docs dk'.
  Proof.
    intros F S Fit S'. destruct F as [O _ Hfl]. assert (Hi : history u c [[]] dk) by (constructor; exact S).
    destruct (create_start u c k m n O Hn Hfl) as (x & ws & Ex & I).
    assert (Fit0 : docs_fit []) by (apply (fit_app [] docs), Fit).
    assert (W0 : words_of (word_char u) [] []) by constructor.
    destruct (session_inv u c k m n O Hn _ x ws [] [] [] [] [] Ex I Fit0 W0 W0) as (A & _). destruct (A dk S) as (fn & fs & D). cbn [app] in D. clear A.
    assert (fs = []) as -> by (pose proof (recs_len _ _ _ (di_recs _ _ _ _ _ _ _ _ _ _ D)) as L; destruct fs; [reflexivity|discriminate]).
    destruct (session_shards c _ x ws [] [] [] [] [] dk O Ex I Fit0 W0 W0 S) as (Ls & _ & Y & fn1 & dm1 & ids & E1 & Dm & Fn).
    cbn [doc_ids] in E1. assert (fn1 = x_fnames x) as -> by congruence. clear E1.
    destruct (open_start u c k m n O Hn Hfl _ _ fn _ dk D ltac:(reflexivity)) as (x' & ws' & Ex' & _).
    destruct (open_shards c _ _ fn _ dk x' ws' O Hfl D ltac:(reflexivity) Ex') as (I' & _ & Sk & _ & _ & X).
    assert (Es : x_shards x' = x_shards x).
    { pose proof (xi_shards _ _ _ _ _ _ _ _ _ _ I) as Lx. pose proof (xi_shards _ _ _ _ _ _ _ _ _ _ I') as Lx'. apply nth_error_ext'. intros j.
      destruct (nth_error (x_shards x) j) as [s|] eqn:Es.
      - pose proof (nth_len _ _ _ Es) as Lj. destruct (nth_ex (x_shards x') j) as [s' Es']; [lia|]. destruct (nth_ex (k_shards dk) j) as [f Ef]; [lia|].
        rewrite Es'. pose proof (Y j s f Es Ef) as Y1. cbn [posts_for] in Y1. unfold serve_batch in Y1. cbn [fold_left] in Y1.
        assert (Fs : s = shard_create).
        { unfold create_indexer in Ex. rewrite (numshards_pos c k m n O Hn), (token_ok c k m n O) in Ex. cbn [bind] in Ex.
          destruct (new_adder None (cf_flush c)); cbn [bind] in Ex; try discriminate. destruct (start_workers c); cbn [bind] in Ex; try discriminate.
          assert (Exx : x_shards x = repeat shard_create (Z.to_nat (cf_numshards c))) by exact (eq_sym (f_equal (fun r => match r with Ok p => x_shards (fst p) | _ => [] end) Ex)).
          rewrite Exx in Es. apply nth_error_In, repeat_spec in Es. exact Es. }
        subst s. rewrite close_none in Y1 by apply create_flushed. destruct (X j f s' Ef Es') as [Fl' ->].
        destruct (for_shards_same shard_append n (k_shards dk) (x_shards x')) as (_ & Z); [|exact Ls|].
        + apply (open_shards c _ _ fn _ dk x' ws' O Hfl D ltac:(reflexivity) Ex').
        + specialize (Z j _ s' Ef Es'). cbn [fst snd] in Z. rewrite Y1 in Ef.
          assert (T : shard_append (iix_bytes (x_ind shard_create)) (x_file shard_create) = Ok shard_create).
          { apply (shard_append_spec shard_create [] _ shard_create_inv create_flushed). reflexivity. }
          assert (Q : shard_append (iix_bytes (x_ind s')) (x_file s') = shard_append (iix_bytes (x_ind shard_create)) (x_file shard_create)) by (f_equal; congruence).
          congruence.
      - apply nth_error_None in Es. apply nth_error_None. lia. }
    inversion S' as [x2 ws2 fn2 dm2 ids2 st j Es2 Ed Est Em Edk].
    assert (x2 = x') as -> by congruence. assert (ws2 = ws') as -> by congruence. clear Es2.
    pose proof (xi_ws _ _ _ _ _ _ _ _ _ _ I) as Ew. pose proof (xi_ws _ _ _ _ _ _ _ _ _ _ I') as Ew'. assert (ws' = ws) as -> by congruence.
    pose proof (df_len _ Fit) as FL. change (2 ^ 32) with 4294967296 in *. pose proof (df_room _ Fit) as FR. change (2 ^ 32) with 4294967296 in *.
    pose proof (xi_room _ _ _ _ _ _ _ _ _ _ I') as Rm. cbn [path_room] in Rm.
    assert (Sk' : skel (x_fnames x') = skel (x_fnames x)).
    { pose proof (di_fnames _ _ _ _ _ _ _ _ _ _ D) as Ef. rewrite Fn in Ef.
      destruct (reload_spec fn (di_wf _ _ _ _ _ _ _ _ _ _ D)) as (g & G1 & _ & G2). destruct (reload_spec (x_fnames x) (xi_wf _ _ _ _ _ _ _ _ _ _ I)) as (g' & G1' & _ & G2').
      assert (fn_write (x_fnames x) = fn_write fn) as Q by congruence. rewrite Q in G1'. congruence. }
    destruct (doc_ids_equiv docs (x_fnames x') (x_fnames x) (x_dmds x') (x_dmds x) [zero_fields] fn2 dm2 ids2) as (e & q & all & E2 & Se & _ & _ & J & J' & La); auto.
    { apply (xi_wf _ _ _ _ _ _ _ _ _ _ I'). } { apply (xi_wf _ _ _ _ _ _ _ _ _ _ I). } { lia. } { apply (df_ok _ Fit). }
    { apply (xi_dmds _ _ _ _ _ _ _ _ _ _ I'). } { apply (xi_dmds _ _ _ _ _ _ _ _ _ _ I). } { change (nlen [zero_fields]) with 1. lia. }
    rewrite (skel_write _ _ Se), (close_same all dm2 q); auto.
    2:{ intros ->. unfold nlen in La at 1. cbn [length] in La. change (nlen [zero_fields]) with 1 in La. lia. }
    2:{ rewrite La. change (nlen [zero_fields]) with 1. lia. }
    destruct (session_inv u c k m n O Hn _ x ws [] [] [] [] [] Ex I Fit0 W0 W0) as (_ & _ & _ & L1).
    destruct (session_inv u c k m n O Hn _ x' ws [] [] [] [] [] Ex' I' Fit0 W0 W0) as (_ & _ & _ & L2).
    rewrite (xi_cfg _ _ _ _ _ _ _ _ _ _ I') in *. rewrite Es, L2, <- L1 in Est. pose proof (xi_cfg _ _ _ _ _ _ _ _ _ _ I) as Ec.
    pose proof (Session u (create_indexer c) docs x ws e q ids2 st j Ex E2) as Q. rewrite Ec in Q. exact (Q Est Em).
  Qed.

  Lemma all_docs_busy ss : all_docs (busy_sessions ss) = all_docs ss.
  Proof.
    induction ss as [|docs ss IH]; [reflexivity|]. rewrite all_docs_cons, <- IH. unfold busy_sessions. cbn [filter].
    destruct docs as [|d docs]; cbn [busy]; [rewrite app_nil_r; reflexivity|apply all_docs_cons].
  Qed.
  (** Sessions that add nothing may be left out. *)
  Lemma busy_history c ss dk : cfg_full c k m n -> history u c ss dk -> docs_fit (all_docs ss) ->
    (busy_sessions ss = [] /\ session u (create_indexer c) [] dk) \/ history u c (busy_sessions ss) dk.
  Proof.
    intros F Hi. induction Hi as [docs dk S|ss dk docs dk' Hi IH S]; intros Fit.
    - destruct docs as [|d docs]; [left; split; [reflexivity|exact S]|right; constructor; exact S].
    - rewrite all_docs_cons in Fit. pose proof (fit_app _ _ Fit) as Fit0. specialize (IH Fit0). destruct docs as [|d docs].
      + rewrite (idle_session c ss dk dk' F Hi Fit0 S). exact IH.
      + right. change (busy_sessions ((d :: docs) :: ss)) with ((d :: docs) :: busy_sessions ss). destruct IH as [[E S0]|Hb]; [|econstructor; eauto].
        rewrite E. constructor. apply (idle_creation c dk); auto. rewrite <- (all_docs_busy ss), E in Fit. exact Fit.
  Qed.

  (** The shards depend on the documents of each session, the blotter and their number only. *)
  Lemma same_shards c c' ss : cfg_full c k m n -> cfg_full c' k m n -> forall dk dk', history u c ss dk -> history u c' ss dk' ->
    docs_fit (all_docs ss) -> k_shards dk = k_shards dk'.
  Proof.
    intros F F'. pose proof F as [O _ Hfl]. pose proof F' as [O' _ Hfl'].
    assert (G : forall docs0 wss0 fs fs' start start' x x' ws ws' docs wss dk dk', start = Ok (x, ws) -> start' = Ok (x', ws') ->
      start_inv u c k m n docs0 wss0 fs x ws -> start_inv u c' k m n docs0 wss0 fs' x' ws' -> docs_fit (docs0 ++ docs) -> words_of (word_char u) docs0 wss0 ->
      words_of (word_char u) docs wss -> x_shards x = x_shards x' -> session u start docs dk -> session u start' docs dk' -> k_shards dk = k_shards dk').
    { intros docs0 wss0 fs fs' start start' x x' ws ws' docs wss dk dk' E E' I I' Fit W0 W1 Es S S'.
      destruct (session_shards c start x ws docs0 wss0 fs docs wss dk O E I Fit W0 W1 S) as (L & _ & Y & _).
      destruct (session_shards c' start' x' ws' docs0 wss0 fs' docs wss dk' O' E' I' Fit W0 W1 S') as (L' & _ & Y' & _).
      pose proof (xi_shards _ _ _ _ _ _ _ _ _ _ I) as Lx. rewrite <- Es in Y'.
      apply nth_error_ext'. intros j. destruct (nth_error (k_shards dk) j) as [f|] eqn:Ef.
      - pose proof (nth_len _ _ _ Ef) as Lj. destruct (nth_ex (k_shards dk') j) as [f' Ef']; [lia|]. destruct (nth_ex (x_shards x) j) as [s Ess]; [lia|].
        rewrite Ef', (Y j s f Ess Ef), (Y' j s f' Ess Ef'). reflexivity.
      - apply nth_error_None in Ef. symmetry. apply nth_error_None. lia. }
    induction ss as [|docs ss IH]; intros dk dk' Hi Hi' Fit; [inversion Hi|].
    destruct (words_total u docs) as [w1 W1]. destruct (words_total u (all_docs ss)) as [w0 W0]. rewrite all_docs_cons in Fit.
    inversion Hi as [d1 k1 S E1|s1 k1 d1 k1' H1 S E1]; subst; inversion Hi' as [d2 k2 S' E2|s2 k2 d2 k2' H2 S' E2]; subst.
    - destruct (create_start u c k m n O Hn Hfl) as (x & ws & Ex & I). destruct (create_start u c' k m n O' Hn Hfl') as (x' & ws' & Ex' & I').
      apply (G [] [] [] [] _ _ x x' ws ws' docs w1 dk dk' Ex Ex' I I' Fit (Forall2_nil _) W1); [|exact S|exact S'].
      assert (Sx : forall c x ws, cfg_ok c k m n -> create_indexer c = Ok (x, ws) -> x_shards x = repeat shard_create n).
      { clear -Hn. intros c x ws O Ex. unfold create_indexer in Ex. rewrite (numshards_pos c k m n O Hn), (token_ok c k m n O), (co_shards _ _ _ _ O), Nat2Z.id in Ex. cbn [bind] in Ex.
        destruct (new_adder None (cf_flush c)); cbn [bind] in Ex; try discriminate. destruct (start_workers c); cbn [bind] in Ex; try discriminate.
        exact (eq_sym (f_equal (fun r => match r with Ok p => x_shards (fst p) | _ => [] end) Ex)). }
      rewrite (Sx c x ws O Ex), (Sx c' x' ws' O' Ex'). reflexivity.
    - inversion H2.
    - inversion H1.
    - pose proof (fit_app _ _ Fit) as Fit0. pose proof (IH k1 k2 H1 H2 Fit0) as Ek. pose proof (df_len _ Fit0) as FL. change (2 ^ 32) with 4294967296 in *.
      destruct (history_inv u c k m n O Hn Hfl ss k1 H1 Fit0 w0 W0) as (fn & fs & D). destruct (history_inv u c' k m n O' Hn Hfl' ss k2 H2 Fit0 w0 W0) as (fn' & fs' & D').
      destruct (open_start u c k m n O Hn Hfl _ w0 fn fs k1 D ltac:(lia)) as (x & ws & E & _). destruct (open_start u c' k m n O' Hn Hfl' _ w0 fn' fs' k2 D' ltac:(lia)) as (x' & ws' & E' & _).
      destruct (open_shards c _ w0 fn fs k1 x ws O Hfl D ltac:(lia) E) as (I & A & _). destruct (open_shards c' _ w0 fn' fs' k2 x' ws' O' Hfl' D' ltac:(lia) E') as (I' & A' & _).
      apply (G (all_docs ss) w0 fs fs' _ _ x x' ws ws' docs w1 dk dk' E E' I I' Fit W0 W1); [|exact S|exact S']. rewrite Ek in A. congruence.
  Qed.
  Lemma write_skel d d' : wf d -> wf d' -> fn_write d = fn_write d' -> skel d = skel d'.
  Proof.
    intros W W' E. destruct (reload_spec d W) as (g & G1 & _ & G2). destruct (reload_spec d' W') as (g' & G1' & _ & G2'). rewrite E in G1. congruence.
  Qed.

  (** The records of the documents and of the paths are as if all had been added in one session. *)
  Lemma records c ss dk : cfg_full c k m n -> history u c ss dk -> docs_fit (all_docs ss) -> forall dm, dmd_inv [zero_fields] dm ->
    exists e q ids all, doc_ids new_fnames dm (all_docs ss) = Ok (e, q, ids) /\ wf e /\ dmd_inv all q /\ nlen all = 1 + nlen (all_docs ss) /\
      k_fnames dk = Some (fn_write e) /\ k_dmd dk = Some (render_dmd all).
  Proof.
    intros F Hi. pose proof F as [O _ Hfl]. induction Hi as [docs dk S|ss dk docs dk' Hi IH S]; intros Fit dm Dm.
    - rewrite all_docs_one in *. destruct (create_start u c k m n O Hn Hfl) as (x & ws & Ex & I). destruct (words_total u docs) as [w W].
      destruct (session_shards c _ x ws [] [] [] docs w dk O Ex I Fit ltac:(constructor) W S) as (_ & _ & _ & fn & q & ids & Ed & Ek & Ef).
      pose proof (df_len _ Fit) as FL. pose proof (df_room _ Fit) as FR. change (2 ^ 32) with 4294967296 in *. pose proof (xi_room _ _ _ _ _ _ _ _ _ _ I) as Rm. cbn [path_room] in Rm.
      assert (En : x_fnames x = new_fnames).
      { unfold create_indexer in Ex. rewrite (numshards_pos c k m n O Hn), (token_ok c k m n O) in Ex. cbn [bind] in Ex.
        destruct (new_adder None (cf_flush c)); cbn [bind] in Ex; try discriminate. destruct (start_workers c); cbn [bind] in Ex; try discriminate.
        exact (eq_sym (f_equal (fun r => match r with Ok p => x_fnames (fst p) | _ => [] end) Ex)). }
      destruct (doc_ids_equiv docs (x_fnames x) (x_fnames x) (x_dmds x) dm [zero_fields] fn q ids) as (e & q' & all & E2 & Se & We & We' & J & J' & La); auto.
      { apply (xi_wf _ _ _ _ _ _ _ _ _ _ I). } { apply (xi_wf _ _ _ _ _ _ _ _ _ _ I). } { lia. } { apply (df_ok _ Fit). }
      { apply (xi_dmds _ _ _ _ _ _ _ _ _ _ I). } { change (nlen [zero_fields]) with 1. lia. }
      change (nlen [zero_fields]) with 1 in La. rewrite En in E2. exists e, q', ids, all. split; [exact E2|]. split; [exact We'|]. split; [exact J'|]. split; [exact La|].
      split; [rewrite Ef, (skel_write _ _ Se); reflexivity|]. rewrite Ek. apply file_bytes_some; [apply adder_close_inv; [lia|exact J]|].
      intros ->. unfold nlen in La at 1. cbn [length] in La. lia.
    - rewrite all_docs_cons in *. pose proof (fit_app _ _ Fit) as Fit0. destruct (IH Fit0 dm Dm) as (e & q & ids & all & E0 & We & J & La & Ef & Ek). clear IH.
      destruct (words_total u docs) as [w1 W1]. destruct (words_total u (all_docs ss)) as [w0 W0].
      pose proof (df_len _ Fit) as FL. pose proof (df_room _ Fit) as FR. pose proof (df_ok _ Fit) as FO. change (2 ^ 32) with 4294967296 in *. unfold nlen in FL. rewrite app_length in FL.
      assert (PR : path_room (all_docs ss ++ docs) = path_room (all_docs ss) + path_room docs).
      { generalize (all_docs ss). clear. induction l as [|p a IH]; cbn [app path_room]; [reflexivity|]. rewrite IH. lia. }
      rewrite PR in FR. clear PR. apply Forall_app in FO.
      destruct (history_inv u c k m n O Hn Hfl ss dk Hi Fit0 w0 W0) as (fn & fs & D).
      destruct (open_start u c k m n O Hn Hfl _ w0 fn fs dk D ltac:(unfold nlen; lia)) as (x & ws & E & _).
      destruct (open_shards c _ w0 fn fs dk x ws O Hfl D ltac:(unfold nlen; lia) E) as (I & _ & Sk & Ed & Eb & _).
      destruct (session_shards c _ x ws _ w0 fs docs w1 dk' O E I Fit W0 W1 S) as (_ & _ & _ & fn1 & q1 & ids1 & Ed1 & Ek1 & Ef1).
      assert (Sf : skel (x_fnames x) = skel e).
      { rewrite Sk. apply write_skel; [apply (di_wf _ _ _ _ _ _ _ _ _ _ D)|exact We|]. pose proof (di_fnames _ _ _ _ _ _ _ _ _ _ D) as A. congruence. }
      pose proof (recs_len _ _ _ (di_recs _ _ _ _ _ _ _ _ _ _ D)) as Lf. pose proof (xi_room _ _ _ _ _ _ _ _ _ _ I) as Rm.
      assert (Dx : dmd_inv all (x_dmds x)).
      { exists all. rewrite Eb, app_nil_r, Ed, Ek. split; [reflexivity|]. split; [reflexivity|].
        destruct (xi_dmds _ _ _ _ _ _ _ _ _ _ I) as (done & A1 & _ & A3). rewrite Eb, app_nil_r in A1. rewrite A3, <- A1, La. unfold nlen. cbn [length]. lia. }
      destruct (doc_ids_equiv docs (x_fnames x) e (x_dmds x) q all fn1 q1 ids1) as (e' & q' & all' & E2 & Se & _ & We' & J1 & J2 & La2); auto.
      { apply (xi_wf _ _ _ _ _ _ _ _ _ _ I). } { lia. } { apply FO. } { rewrite La. unfold nlen. lia. }
      exists e', q', (ids ++ ids1), all'. rewrite doc_ids_app, E0. cbn [bind]. rewrite E2. cbn [bind]. split; [reflexivity|]. split; [exact We'|]. split; [exact J2|].
      split; [rewrite La2, La; unfold nlen; rewrite app_length; lia|]. split; [rewrite Ef1, (skel_write _ _ Se); reflexivity|].
      rewrite Ek1. apply file_bytes_some; [apply adder_close_inv; [rewrite La2, La; unfold nlen; lia|exact J1]|].
      intros ->. unfold nlen in La2 at 1. cbn [length] in La2. lia.
  Qed.
  Theorem same_records c c' ss ss' dk dk' : cfg_full c k m n -> cfg_full c' k m n -> history u c ss dk -> history u c' ss' dk' -> docs_fit (all_docs ss) ->
    all_docs ss = all_docs ss' -> k_dmd dk = k_dmd dk' /\ k_fnames dk = k_fnames dk'.
  Proof.
    intros F F' Hi Hi' Fit E. destruct (new_adder_fresh 1 ltac:(lia)) as (a & _ & Ia).
    destruct (records c ss dk F Hi Fit _ Ia) as (e & q & ids & all & E1 & _ & J & La & Ef & Ek). rewrite E in Fit.
    destruct (records c' ss' dk' F' Hi' Fit _ Ia) as (e' & q' & ids' & all' & E1' & _ & J' & La' & Ef' & Ek').
    rewrite E, E1' in E1. assert (e' = e) as -> by congruence. assert (q' = q) as -> by congruence. split; [|congruence].
    rewrite E in La. pose proof (df_len _ Fit) as FL. change (2 ^ 32) with 4294967296 in *.
    apply adder_close_inv in J; [|lia]. apply adder_close_inv in J'; [|lia]. congruence.
  Qed.
  Theorem same_files c c' ss ss' dk dk' : cfg_full c k m n -> cfg_full c' k m n -> history u c ss dk -> history u c' ss' dk' -> docs_fit (all_docs ss) ->
    busy_sessions ss = busy_sessions ss' -> k_dmd dk = k_dmd dk' /\ k_fnames dk = k_fnames dk' /\ k_shards dk = k_shards dk'.
  Proof.
    intros F F' Hi Hi' Fit E. assert (Ea : all_docs ss = all_docs ss') by (rewrite <- (all_docs_busy ss), E; apply all_docs_busy).
    destruct (same_records c c' ss ss' dk dk' F F' Hi Hi' Fit Ea) as [A B]. split; [exact A|]. split; [exact B|].
    pose proof Fit as Fit'. rewrite Ea in Fit'.
    destruct (busy_history c ss dk F Hi Fit) as [[N S]|Hb]; destruct (busy_history c' ss' dk' F' Hi' Fit') as [[N' S']|Hb'].
    - apply (same_shards c c' [[]] F F'); [constructor; exact S|constructor; exact S'|]. rewrite <- (all_docs_busy ss), N in Fit. exact Fit.
    - rewrite <- E, N in Hb'. inversion Hb'.
    - rewrite E, N' in Hb. inversion Hb.
    - rewrite <- E in Hb'. apply (same_shards c c' _ F F' dk dk' Hb Hb'). rewrite all_docs_busy. exact Fit.
  Qed.
End S.
