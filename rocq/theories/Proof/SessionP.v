(** Sessions: what the files of an index hold. *)
From Verif Require Import Model.Base Model.Utf8 Model.Token Model.Blotter Model.Post Model.Poster Model.Shatter Model.Shard Model.Dmd Model.Fnames Model.Conc Model.Config Model.Run Model.Index Model.Query Model.Session.
From Verif Require Import Spec.Text Spec.Fingerprint Spec.Configs Spec.Posting Spec.Postings Spec.Paths Spec.Reading Spec.Querying Spec.History.
From Verif Require Import Proof.Tactics Proof.VarintP Proof.TokenP Proof.BlotterP Proof.ShatterP Proof.IndexP2 Proof.DmdP Proof.FnamesP Proof.FnamesP2 Proof.PosterP Proof.ShardP Proof.ConcP Proof.ConcRun.
Local Open Scope N_scope.

(** * The posts of a slot are the documents that carry the blot *)
Section Carriers.
  Variables (H : bytes -> N) (k m n : nat).
  Hypothesis Hn : (0 < n)%nat.
  Definition small (wss : list (list bytes)) : Prop := Forall (fun ws => Forall (fun b => b < 4294967296) (spec_blots H k m ws)) wss.

  Definition hit (j s : nat) (b : N) : bool := (b mod N.of_nat n =? N.of_nat j) && ((b / N.of_nat n) mod 65536 =? N.of_nat s).
  Lemma hit_spec j s b : (j < n)%nat -> (s < num_slots)%nat ->
    hit j s b = (b mod (N.of_nat n * 65536) =? N.of_nat s * N.of_nat n + N.of_nat j).
  Proof.
    intros Lj Ls. assert (Z : N.of_nat n <> 0) by lia. unfold hit. rewrite N.mod_mul_r by (exact Z || discriminate).
    pose proof (N.mod_lt b (N.of_nat n) Z) as A.
    revert A. generalize (b mod N.of_nat n) ((b / N.of_nat n) mod 65536). intros r q A.
    destruct (N.eqb_spec r (N.of_nat j)) as [->|Nr]; cbn [andb].
    - destruct (N.eqb_spec q (N.of_nat s)) as [->|Nq]; symmetry; [apply N.eqb_eq; lia|apply N.eqb_neq].
      intros E. apply Nq. apply (N.mul_cancel_l _ _ (N.of_nat n) Z). lia.
    - symmetry. apply N.eqb_neq. intros E. apply Nr.
      assert (E2 : (r + N.of_nat n * q) mod N.of_nat n = (N.of_nat s * N.of_nat n + N.of_nat j) mod N.of_nat n) by congruence.
      assert (Lj' : N.of_nat j < N.of_nat n) by lia.
      rewrite (N.mul_comm _ q), N.mod_add, N.mod_small in E2 by assumption.
      rewrite N.add_comm, N.mod_add, N.mod_small in E2 by assumption. exact E2.
  Qed.
  Lemma posted_doc j s d bl : (s < num_slots)%nat -> d < 4294967296 -> Forall (fun b => b < 4294967296) bl ->
    posted s (map (post_make d) (shard_part (N.of_nat n) (N.of_nat j) bl)) = repeat d (length (filter (hit j s) bl)).
  Proof.
    intros Ls Hd. induction 1 as [|b bl Hb F IH]; [reflexivity|].
    unfold shard_part in *. cbn [filter]. unfold hit at 1. destruct (b mod N.of_nat n =? N.of_nat j); cbn [andb map]; [|exact IH].
    assert (Hq : b / N.of_nat n < 4294967296).
    { eapply N.le_lt_trans; [|exact Hb]. apply N.div_le_upper_bound; [lia|]. nia. }
    unfold posted in *. cbn [filter]. rewrite post_blot_make by assumption.
    destruct ((b / N.of_nat n) mod 65536 =? N.of_nat s); [|exact IH].
    cbn [map length repeat]. rewrite post_docid_make by assumption. f_equal. exact IH.
  Qed.
  Lemma posted_above j s : (s < num_slots)%nat -> forall wss last x, last + nlen wss < 4294967296 -> small wss ->
    In x (posted s (posts_for H k m n j last wss)) -> last < x.
  Proof.
    intros Ls. induction wss as [|ws wss IH]; intros last x L S Hx; cbn [posts_for] in Hx; [destruct Hx|].
    inversion S as [|? ? S1 S2]; subst. unfold nlen in *. cbn [length] in L.
    rewrite posted_app in Hx. apply in_app_or in Hx. destruct Hx as [Hx|Hx].
    - rewrite posted_doc in Hx by (auto; lia). apply repeat_spec in Hx. lia.
    - apply IH in Hx; [lia|lia|exact S2].
  Qed.
  Lemma squeeze_repeat d c l : ~ In d l -> squeeze (repeat d c ++ l) = (if (c =? 0)%nat then [] else [d]) ++ squeeze l.
  Proof.
    intros Hl. induction c as [|c IH]; [reflexivity|]. cbn [repeat app Nat.eqb].
    destruct c as [|c].
    - cbn [repeat app] in *. destruct l as [|y l]; [reflexivity|]. rewrite squeeze_cons2.
      destruct (N.eqb_spec d y) as [->|]; [exfalso; apply Hl; left; reflexivity|reflexivity].
    - cbn [repeat app Nat.eqb] in *. rewrite squeeze_cons2, N.eqb_refl. exact IH.
  Qed.
  Lemma filter_exists {A} (f : A -> bool) l : (length (filter f l) =? 0)%nat = negb (existsb f l).
  Proof. induction l as [|x l IH]; cbn [filter existsb]; [reflexivity|]. destruct (f x); [reflexivity|]. exact IH. Qed.
  Lemma existsb_ext' {A} (f g : A -> bool) l : (forall x, f x = g x) -> existsb f l = existsb g l.
  Proof. intros E. induction l as [|x l IH]; cbn [existsb]; [reflexivity|]. rewrite E, IH. reflexivity. Qed.
  Lemma posts_carriers j s : (j < n)%nat -> (s < num_slots)%nat -> forall wss last, last + nlen wss < 4294967296 -> small wss ->
    squeeze (posted s (posts_for H k m n j last wss)) = carriers H k m n last wss (N.of_nat s * N.of_nat n + N.of_nat j).
  Proof.
    intros Lj Ls. induction wss as [|ws wss IH]; intros last L S; [reflexivity|]. cbn [posts_for carriers].
    inversion S as [|? ? S1 S2]; subst. unfold nlen in *. cbn [length] in L.
    rewrite posted_app, posted_doc by (auto; lia). rewrite squeeze_repeat.
    2:{ intros C. apply posted_above in C; auto; unfold nlen; lia. }
    rewrite IH by (auto; lia). f_equal. rewrite filter_exists. unfold has_blot.
    rewrite (existsb_ext' _ _ _ (fun b => hit_spec j s b Lj Ls)). destruct (existsb _ _); reflexivity.
  Qed.
  Lemma carriers_len q : forall wss last, (length (carriers H k m n last wss q) <= length wss)%nat.
  Proof. clear Hn.
    induction wss as [|ws wss IH]; intros last; cbn [carriers length]; [lia|]. rewrite app_length. specialize (IH (last + 1)).
    destruct (has_blot _ _ _ _ _ _); cbn [length]; lia.
  Qed.
  Lemma carriers_in q : forall wss last x, In x (carriers H k m n last wss q) -> last < x <= last + nlen wss.
  Proof. clear Hn.
    induction wss as [|ws wss IH]; intros last x Hx; cbn [carriers] in Hx; [destruct Hx|]. unfold nlen in *. cbn [length].
    apply in_app_or in Hx. destruct Hx as [Hx|Hx].
    - destruct (has_blot _ _ _ _ _ _); [destruct Hx as [<-|[]]; lia|destruct Hx].
    - apply IH in Hx. lia.
  Qed.
  Lemma posts_for_app j : forall a last b, posts_for H k m n j last (a ++ b) = posts_for H k m n j last a ++ posts_for H k m n j (last + nlen a) b.
  Proof. clear Hn.
    induction a as [|ws a IH]; intros last b; cbn [app posts_for]; [f_equal; unfold nlen; cbn; lia|].
    rewrite IH, <- app_assoc. do 3 f_equal. unfold nlen. cbn [length]. lia.
  Qed.
  Lemma posted_none s hist : (num_slots <= s)%nat -> posted s hist = [].
  Proof.
    intros L. unfold posted. induction hist as [|p l IH]; [reflexivity|]. cbn [filter].
    pose proof (N.mod_lt (post_blot p) 65536 ltac:(lia)). unfold num_slots in L.
    destruct (N.eqb_spec (post_blot p mod 65536) (N.of_nat s)); [lia|exact IH].
  Qed.
  Lemma posts_bounded j last wss : (j < n)%nat -> last + nlen wss < 4294967296 -> small wss -> bounded (posts_for H k m n j last wss).
  Proof.
    intros Lj L S s. destruct (Nat.lt_ge_cases s num_slots) as [Ls|Ls].
    - rewrite posts_carriers by auto. unfold nlen in *. pose proof (carriers_len (N.of_nat s * N.of_nat n + N.of_nat j) wss last). lia.
    - rewrite posted_none by exact Ls. reflexivity.
  Qed.
End Carriers.

Lemma small_words u k m (docs : list req) wss : Forall2 (fun d ws => doc_words (word_char u) (snd d) ws) docs wss -> small (word_hash u) k m wss.
Proof.
  induction 1 as [|d ws docs wss W F IH]; [constructor|]. constructor; [|exact IH].
  apply spec_blots_bound. eapply doc_words_bytes, W.
Qed.

(** * The parts of a session *)
Lemma words_of_requests u docs wss : words_of (word_char u) docs wss -> Forall2 (fun d ws => doc_words (word_char u) (snd d) ws) (requests docs) wss.
Proof. induction 1 as [|p ws docs wss W F IH]; cbn [requests map]; constructor; auto. Qed.
Lemma words_of_small u k m docs wss : words_of (word_char u) docs wss -> small (word_hash u) k m wss.
Proof. intros W. eapply small_words, words_of_requests, W. Qed.
Lemma words_of_len u docs wss : words_of (word_char u) docs wss -> length wss = length docs.
Proof. induction 1; cbn [length]; auto. Qed.

(** A record belongs to a document. *)
Definition rec_of (fn : fnames) (f : fields) (p : bytes * doc) : Prop :=
  f_start f = d_start (snd p) /\ f_end f = d_end (snd p) /\ is_path fn (f_fid f) (parts_of (spec_abs (fst p) (d_path (snd p)))).
Lemma rec_of_extends fn fn' fs docs : extends fn fn' -> Forall2 (rec_of fn) fs docs -> Forall2 (rec_of fn') fs docs.
Proof.
  intros X F. induction F as [|f p fs docs (A & B & C) F IH]; [constructor|]. constructor; [|exact IH].
  split; [exact A|]. split; [exact B|]. eapply extends_path; eauto.
Qed.
Lemma rec_of_skel fn fn' fs docs : skel fn = skel fn' -> Forall2 (rec_of fn) fs docs -> Forall2 (rec_of fn') fs docs.
Proof. intros E. apply rec_of_extends. exists []. rewrite app_nil_r. auto. Qed.

Lemma doc_ids_spec docs : forall fn dm all, wf fn -> nlen fn + path_room docs < 4294967296 -> Forall doc_ok docs ->
  dmd_inv all dm -> nlen all + nlen docs <= 4294967296 ->
  exists fn' dm' fs, doc_ids fn dm docs = Ok (fn', dm', map N.of_nat (seq (length all) (length docs))) /\
    wf fn' /\ extends fn fn' /\ nlen fn' <= nlen fn + path_room docs /\ dmd_inv (all ++ fs) dm' /\ Forall2 (rec_of fn') fs docs /\
    (forall i q, is_path fn' i q -> is_path fn i q \/ node_of docs q).
Proof.
  induction docs as [|[cwd d] docs IH]; intros fn dm all W R O I L; cbn [doc_ids].
  - exists fn, dm, []. split; [reflexivity|]. split; [exact W|]. split; [apply extends_refl|]. split; [cbn [path_room]; lia|].
    split; [rewrite app_nil_r; exact I|]. split; [constructor|]. auto.
  - inversion O as [|? ? (O1 & O2 & O3) O']; subst. cbn [path_room fst snd] in *. unfold nlen in L. cbn [length] in L.
    unfold doc2id. destruct (add_path_spec cwd fn (d_path d) O1 W) as (fn1 & fid & E1 & W1 & X1 & P1 & L1); [cbn [room1]; lia|].
    pose proof (add_path_nodes cwd fn (d_path d) fn1 fid O1 W ltac:(cbn [room1]; lia) E1) as N1.
    rewrite E1. cbn [bind]. cbn [room1] in L1.
    destruct (adder_add_inv all dm (MkFields fid (d_start d) (d_end d))) as [I1 Id]; [unfold nlen; lia|exact I|].
    destruct (adder_add dm (MkFields fid (d_start d) (d_end d))) as [dm1 did]. cbn [fst snd bind] in *.
    destruct (IH fn1 dm1 (all ++ [MkFields fid (d_start d) (d_end d)]) W1) as (fn2 & dm2 & fs & E2 & W2 & X2 & L2 & I2 & F2 & N2); auto.
    { lia. } { unfold nlen. rewrite app_length. cbn [length]. lia. }
    rewrite E2. cbn [bind]. exists fn2, dm2, (MkFields fid (d_start d) (d_end d) :: fs).
    split; [|split; [exact W2|]; split; [eapply extends_trans; eauto|]; split; [lia|]; split; [rewrite <- app_assoc in I2; exact I2|]; split].
    + rewrite Id. rewrite app_length. cbn [length seq map]. rewrite Nat.add_1_r. reflexivity.
    + constructor; [|exact F2]. split; [reflexivity|]. split; [reflexivity|]. cbn [f_fid]. eapply extends_path; eauto.
    + intros i q Hq. destruct (N2 i q Hq) as [Q|[->|(p & suf & Hp & Es)]].
      * destruct (N1 i q Q) as [Q'|[suf Es]]; [left; exact Q'|]. right. right. exists (cwd, d), suf.
        split; [left; reflexivity|]. rewrite tree_path_parts. exact Es.
      * right. left. reflexivity.
      * right. right. exists p, suf. split; [right; exact Hp|exact Es].
Qed.

Lemma for_shards_spec {A} (f : bytes -> bytes -> result A) (P : nat -> A -> Prop) files : forall b n,
  length files = n -> (forall j iix pos, nth_error files j = Some (iix, pos) -> exists y, f iix pos = Ok y /\ P (b + j)%nat y) ->
  exists ys, for_shards f n files = Ok ys /\ length ys = n /\ forall j y, nth_error ys j = Some y -> P (b + j)%nat y.
Proof.
  induction files as [|[iix pos] files IH]; intros b n L X; cbn [length] in L; subst n; cbn [for_shards].
  - exists []. split; [reflexivity|]. split; [reflexivity|]. intros [|j] y E; discriminate.
  - destruct (X 0%nat iix pos eq_refl) as (y & Ey & Py). rewrite Ey. cbn [bind].
    destruct (IH (S b) (length files) eq_refl) as (ys & E & Ly & Z).
    { intros j i p Ej. destruct (X (S j) i p Ej) as (z & Ez & Pz). exists z. split; [exact Ez|]. replace (S b + j)%nat with (b + S j)%nat by lia. exact Pz. }
    rewrite E. cbn [bind]. exists (y :: ys). split; [reflexivity|]. split; [cbn [length]; lia|].
    intros [|j] z Ej; cbn [nth_error] in Ej.
    + assert (z = y) as -> by congruence. exact Py.
    + replace (b + S j)%nat with (S b + j)%nat by lia. eauto.
Qed.

Section S.
  Variables (u : unicode) (c : config) (k m n : nat).
  Hypothesis O : cfg_ok c k m n.
  Hypothesis Hn : N.of_nat n < 65536.
  Hypothesis Hfl : (1 <= cf_flush c)%Z.
  Notation posts j wss := (posts_for (word_hash u) k m n j 0 wss).

  (** The files of an index that holds [docs]. *)
  Record disk_inv (docs : list (bytes * doc)) (wss : list (list bytes)) (fn : fnames) (fs : list fields) (dk : disk) : Prop := {
    di_cfg : k_cfg dk = Some c;
    di_dmd : k_dmd dk = dmd_file fs;
    di_fnames : k_fnames dk = Some (fn_write fn);
    di_wf : wf fn;
    di_room : nlen fn <= 1 + path_room docs;
    di_recs : Forall2 (rec_of fn) fs docs;
    di_nodes : forall i q, is_path fn i q -> node_of docs q;
    di_shards : length (k_shards dk) = n;
    di_closed : forall j files, nth_error (k_shards dk) j = Some files -> closed_files files (posts j wss) }.
  (** An indexer at the start of a session. *)
  Record start_inv (docs : list (bytes * doc)) (wss : list (list bytes)) (fs : list fields) (x : indexer) (ws : list blotter) : Prop := {
    xi_cfg : x_cfg x = c;
    xi_dmds : dmd_inv (zero_fields :: fs) (x_dmds x);
    xi_wf : wf (x_fnames x);
    xi_room : nlen (x_fnames x) <= 1 + path_room docs;
    xi_recs : Forall2 (rec_of (x_fnames x)) fs docs;
    xi_nodes : forall i q, is_path (x_fnames x) i q -> node_of docs q;
    xi_shards : length (x_shards x) = n;
    xi_open : forall j sh, nth_error (x_shards x) j = Some sh -> exists log, shard_inv sh log (content_of (posts j wss));
    xi_ws : start_workers c = Ok ws }.

  Lemma numshards_pos : (cf_numshards c <? 0)%Z = false.
  Proof. rewrite (co_shards _ _ _ _ O). lia. Qed.
  Lemma token_ok : token_from_config (cf_token c) = Ok tt.
  Proof. rewrite (co_token _ _ _ _ O). vm_compute. reflexivity. Qed.
  Lemma check_ok : cfg_check c = Ok tt.
  Proof.
    unfold cfg_check. rewrite (co_seqlen _ _ _ _ O), (co_blot _ _ _ _ O). cbn [bc_interleave bc_seqlen].
    replace (Z.of_nat (k * m)) with (Z.of_nat k * Z.of_nat m)%Z by lia.
    pose proof (co_int _ _ _ _ O) as Hi. rewrite (co_seqlen _ _ _ _ O) in Hi.
    assert (W : wrap64 (Z.of_nat k * Z.of_nat m) = (Z.of_nat k * Z.of_nat m)%Z).
    { unfold wrap64. rewrite Z.mod_small; lia. }
    rewrite W, Z.eqb_refl. reflexivity.
  Qed.
  Lemma workers_ok : exists ws, start_workers c = Ok ws.
  Proof.
    unfold start_workers. destruct (_ <=? 0)%Z; [eauto|]. rewrite (co_blot _ _ _ _ O).
    destruct (blotter_fresh u k m (co_k _ _ _ _ O) (co_m _ _ _ _ O)) as (b & E & _). rewrite E. cbn [bind]. eauto.
  Qed.
  Lemma recs_len fn fs docs : Forall2 (rec_of fn) fs docs -> length fs = length docs.
  Proof. induction 1; cbn [length]; auto. Qed.

  Lemma create_start : exists x ws, create_indexer c = Ok (x, ws) /\ start_inv [] [] [] x ws.
  Proof.
    unfold create_indexer. rewrite numshards_pos, token_ok. cbn [bind].
    destruct (new_adder_fresh (cf_flush c) Hfl) as (a & E & I). rewrite E. cbn [bind].
    destruct workers_ok as [ws Ew]. rewrite Ew. cbn [bind]. eexists _, ws. split; [reflexivity|].
    constructor; cbn [x_cfg x_dmds x_fnames x_shards]; auto.
    - apply new_wf.
    - vm_compute. discriminate.
    - intros i q Hq. pose proof (is_path_lt _ _ _ new_wf Hq) as L. assert (i = 0) as -> by (vm_compute in L; destruct i as [|i]; [reflexivity|destruct i; discriminate]).
      left. exact (is_path_fun _ _ _ Hq _ (IP0 _)).
    - rewrite repeat_length. rewrite (co_shards _ _ _ _ O). lia.
    - intros j sh E2. apply nth_error_In, repeat_spec in E2. subst sh. exists []. cbn [posts_for]. apply shard_create_inv.
  Qed.
  Lemma open_start docs wss fn fs dk : disk_inv docs wss fn fs dk -> nlen docs < 4294967295 ->
    exists x ws, open_indexer dk = Ok (x, ws) /\ start_inv docs wss fs x ws.
  Proof.
    intros D L. pose proof (recs_len _ _ _ (di_recs _ _ _ _ _ D)) as Lf. unfold open_indexer, read_config. rewrite (di_cfg _ _ _ _ _ D), check_ok. cbn [bind].
    rewrite numshards_pos, (di_dmd _ _ _ _ _ D).
    destruct (new_adder_reopen (cf_flush c) fs Hfl) as (a & E & I & _); [unfold nlen in *; lia|]. rewrite E. cbn [bind].
    rewrite (di_fnames _ _ _ _ _ D). cbn [read_some].
    destruct (reload_spec fn (di_wf _ _ _ _ _ D)) as (fn' & E1 & W1 & S1). rewrite E1. cbn [bind]. rewrite token_ok. cbn [bind].
    destruct (for_shards_spec shard_append (fun j sh => exists log, shard_inv sh log (content_of (posts j wss))) (k_shards dk) 0 n (di_shards _ _ _ _ _ D))
      as (ys & E2 & Ly & Y).
    { intros j iix pos Ej. destruct (di_closed _ _ _ _ _ D j _ Ej) as (x & log & J & F & Sz & Ef).
      assert (iix = iix_bytes (x_ind x)) as -> by congruence. assert (pos = x_file x) as -> by congruence.
      exists x. split; [eapply shard_append_spec; eauto|]. exists log. exact J. }
    rewrite (co_shards _ _ _ _ O), Nat2Z.id, E2. cbn [bind]. destruct workers_ok as [ws Ew]. rewrite Ew. cbn [bind].
    eexists _, ws. split; [reflexivity|]. constructor; cbn [x_cfg x_dmds x_fnames x_shards]; auto.
    - unfold nlen in *. rewrite <- (skel_length fn'), S1, skel_length. apply (di_room _ _ _ _ _ D).
    - apply rec_of_skel with (fn := fn); [auto|apply (di_recs _ _ _ _ _ D)].
    - intros i q Hq. apply (di_nodes _ _ _ _ _ D i). eapply extends_path; [|exact Hq]. exists []. rewrite app_nil_r. auto.
  Qed.

  Lemma session_inv start x ws docs0 wss0 fs0 docs wss : start = Ok (x, ws) -> start_inv docs0 wss0 fs0 x ws ->
    docs_fit (docs0 ++ docs) -> words_of (word_char u) docs0 wss0 -> words_of (word_char u) docs wss ->
    (forall dk, session u start docs dk -> exists fn fs, disk_inv (docs0 ++ docs) (wss0 ++ wss) fn fs dk) /\
    ((0 < cf_numshatters c)%Z -> exists dk, session u start docs dk) /\
    (exists fn dm, doc_ids (x_fnames x) (x_dmds x) docs = Ok (fn, dm, map N.of_nat (seq (S (length docs0)) (length docs)))) /\
    adder_last (fst (x_dmds x)) = nlen docs0.
  Proof.
    intros Est I Fit W0 W1. pose proof (df_ok _ Fit) as FO. apply Forall_app in FO. destruct FO as [_ FO].
    pose proof (df_len _ Fit) as FL. pose proof (df_room _ Fit) as FR. change (2 ^ 32) with 4294967296 in *.
    assert (PR : forall a b, path_room (a ++ b) = path_room a + path_room b).
    { induction a as [|p a IH]; intros b; cbn [app path_room]; [reflexivity|]. rewrite IH. lia. }
    rewrite PR in FR. pose proof (recs_len _ _ _ (xi_recs _ _ _ _ _ I)) as Lf. pose proof (xi_room _ _ _ _ _ I) as Rm.
    unfold nlen in FL. rewrite app_length in FL.
    destruct (doc_ids_spec docs (x_fnames x) (x_dmds x) (zero_fields :: fs0) (xi_wf _ _ _ _ _ I)) as (fn & dm & fs & E1 & W & X & Ln & Id & Rc & Nd).
    { lia. } { exact FO. } { apply (xi_dmds _ _ _ _ _ I). } { unfold nlen. cbn [length]. lia. }
    assert (Last : adder_last (fst (x_dmds x)) = nlen docs0).
    { rewrite (adder_last_inv (zero_fields :: fs0)); [unfold nlen; cbn [length]; lia|unfold nlen; cbn [length]; lia|discriminate|apply (xi_dmds _ _ _ _ _ I)]. }
    destruct (cfg_nat _ _ _ _ O) as (En & Es & Hk & Hm & Hn0).
    destruct (start_workers_good u c k m n ws O (xi_ws _ _ _ _ _ I)) as (Gw & Lw).
    assert (Lr : length (requests docs) = length docs) by apply map_length.
    assert (Hl' : nlen docs0 + nlen (requests docs) < 4294967295) by (unfold nlen; lia).
    pose proof (words_of_len _ _ _ W0) as Lw0. pose proof (words_of_len _ _ _ W1) as Lw1.
    assert (Small : small (word_hash u) k m (wss0 ++ wss)).
    { apply Forall_app. split; [eapply words_of_small, W0|eapply words_of_small, W1]. }
    split; [|split; [|split]].
    - intros dk S. inversion S as [x' ws' fn' dm' ids st j Es' Ed Est' Em]; subst.
      injection Es' as <- <-. rewrite E1 in Ed. injection Ed as <- <- _.
      rewrite (xi_cfg _ _ _ _ _ I) in *. rewrite Last in Est'. unfold session_steps, session_start in Est'. rewrite En, Es in Est'.
      destruct (run_prefix serve_post u k m n Hk Hm Hn0 ltac:(lia) (requests docs) wss (nlen docs0) ws (x_shards x) Gw (xi_shards _ _ _ _ _ I) Hl'
        (words_of_requests _ _ _ W1) st Est') as (Lsv & _).
      destruct (run_complete serve_post u k m n Hk Hm Hn0 ltac:(lia) (requests docs) wss (nlen docs0) ws (x_shards x) Gw (xi_shards _ _ _ _ _ I) Hl'
        (words_of_requests _ _ _ W1) st j Est' Em) as (_ & Y).
      exists fn, (fs0 ++ fs). constructor; cbn [k_cfg k_dmd k_fnames k_shards]; auto.
      + apply file_bytes_some; [|discriminate]. apply adder_close_inv; [|exact Id].
        unfold nlen. cbn [app length]. rewrite app_length. pose proof (recs_len _ _ _ Rc). lia.
      + rewrite PR. lia.
      + apply Forall2_app; [|exact Rc]. eapply rec_of_extends; [exact X|apply (xi_recs _ _ _ _ _ I)].
      + intros i q Hq. assert (Mono : forall l, node_of l q -> incl l (docs0 ++ docs) -> node_of (docs0 ++ docs) q).
        { intros l [->|(p & suf & Hp & Es')] Hl; [left; reflexivity|]. right. exists p, suf. auto. }
        destruct (Nd i q Hq) as [Q|Q]; [apply (xi_nodes _ _ _ _ _ I), Mono in Q|apply Mono in Q]; auto; [apply incl_appl|apply incl_appr]; apply incl_refl.
      + rewrite !map_length. exact Lsv.
      + intros i files Ef. rewrite !nth_error_map in Ef. destruct (nth_error (s_servers st) i) as [v|] eqn:Ev; [|discriminate].
        cbn [option_map] in Ef. assert (files = shard_close (v_shard v)) as -> by congruence.
        assert (Li : (i < n)%nat) by (rewrite <- Lsv; eapply nth_len, Ev).
        destruct (nth_ex (x_shards x) i) as [s0 E0]; [rewrite (xi_shards _ _ _ _ _ I); exact Li|].
        rewrite (Y i v s0 Ev E0). destruct (xi_open _ _ _ _ _ I i s0 E0) as [log J].
        assert (B : bounded (posts i (wss0 ++ wss))) by (apply posts_bounded; auto; unfold nlen; rewrite app_length; lia).
        rewrite posts_for_app in B |- *. replace (0 + nlen wss0) with (nlen docs0) in B |- * by (unfold nlen; lia).
        destruct (serve_batch_inv (posts_for (word_hash u) k m n i (nlen docs0) wss) s0 log _ J B) as [log' J'].
        unfold serve_batch in J'. eapply close_closed; eauto.
    - intros Hsh. destruct (completes u c k m n ws (nlen docs0) (requests docs) (x_shards x) O) as (st & St & F); auto.
      { change (2 ^ 32) with 4294967296. lia. } { apply (xi_ws _ _ _ _ _ I). } { apply (xi_shards _ _ _ _ _ I). }
      destruct F as (_ & Em & _). eexists. econstructor; eauto. rewrite Last, (xi_cfg _ _ _ _ _ I). exact St.
    - exists fn, dm. rewrite E1. cbn [length]. rewrite Lf. reflexivity.
    - exact Last.
  Qed.

  Lemma all_docs_cons docs ss : all_docs (docs :: ss) = all_docs ss ++ docs.
  Proof. unfold all_docs. cbn [rev]. rewrite concat_app. cbn [concat]. rewrite app_nil_r. reflexivity. Qed.
  Lemma all_docs_one docs : all_docs [docs] = docs.
  Proof. unfold all_docs. cbn [rev app concat]. apply app_nil_r. Qed.
  Lemma fit_app a b : docs_fit (a ++ b) -> docs_fit a.
  Proof. clear O Hn Hfl.
    intros [A B C]. apply Forall_app in A. constructor; [apply A| |].
    - unfold nlen in *. rewrite app_length in B. lia.
    - assert (PR : path_room (a ++ b) = path_room a + path_room b).
      { clear. induction a as [|p a IH]; cbn [app path_room]; [reflexivity|]. rewrite IH. lia. }
      lia.
  Qed.
  Lemma words_total docs : exists wss, words_of (word_char u) docs wss.
  Proof.
    induction docs as [|[cwd d] docs [wss IH]]; [exists []; constructor|].
    destruct (doc_words_total u (d_dat d)) as [ws E]. exists (ws :: wss). constructor; auto.
  Qed.
  Lemma words_of_fun docs w1 w2 : words_of (word_char u) docs w1 -> words_of (word_char u) docs w2 -> w1 = w2.
  Proof.
    intros F1. revert w2. induction F1 as [|p ws docs wss E F IH]; intros w2 F2; inversion F2; subst; [reflexivity|].
    f_equal; [eapply doc_words_fun; eauto|eauto].
  Qed.

  (** After any history. *)
  Theorem history_inv ss dk : history u c ss dk -> docs_fit (all_docs ss) ->
    forall wss, words_of (word_char u) (all_docs ss) wss -> exists fn fs, disk_inv (all_docs ss) wss fn fs dk.
  Proof.
    induction 1 as [docs dk S|ss dk docs dk' H IH S]; intros Fit wss Ww.
    - rewrite all_docs_one in *. destruct create_start as (x & ws & E & I).
      destruct (session_inv _ x ws [] [] [] docs wss E I Fit) as (A & _); [constructor|exact Ww|]. apply A, S.
    - rewrite all_docs_cons in *. destruct (words_total (all_docs ss)) as [w0 W0]. destruct (words_total docs) as [w1 W1].
      assert (wss = w0 ++ w1) as -> by (eapply words_of_fun; [exact Ww|apply Forall2_app; assumption]).
      destruct (IH (fit_app _ _ Fit) w0 W0) as (fn & fs & D).
      pose proof (df_len _ (fit_app _ _ Fit)) as L. change (2 ^ 32) with 4294967296 in L.
      destruct (open_start _ _ _ _ _ D ltac:(lia)) as (x & ws & E & I).
      destruct (session_inv _ x ws _ _ _ docs w1 E I Fit W0 W1) as (A & _). apply A, S.
  Qed.
  (** Every history can happen. *)
  Theorem history_exists ss : ss <> [] -> (0 < cf_numshatters c)%Z -> docs_fit (all_docs ss) -> exists dk, history u c ss dk.
  Proof.
    intros Ne Hs. induction ss as [|docs ss IH]; intros Fit; [congruence|].
    destruct ss as [|d2 ss].
    - rewrite all_docs_one in *. destruct create_start as (x & ws & E & I). destruct (words_total docs) as [w1 W1].
      destruct (session_inv _ x ws [] [] [] docs w1 E I Fit) as (_ & A & _); [constructor|exact W1|].
      destruct (A Hs) as [dk S]. exists dk. constructor. exact S.
    - rewrite all_docs_cons in Fit. destruct (IH ltac:(discriminate) (fit_app _ _ Fit)) as [dk H].
      destruct (words_total (all_docs (d2 :: ss))) as [w0 W0]. destruct (words_total docs) as [w1 W1].
      destruct (history_inv _ _ H (fit_app _ _ Fit) w0 W0) as (fn & fs & D).
      pose proof (df_len _ (fit_app _ _ Fit)) as L. change (2 ^ 32) with 4294967296 in L.
      destruct (open_start _ _ _ _ _ D ltac:(lia)) as (x & ws & E & I).
      destruct (session_inv _ x ws _ _ _ docs w1 E I Fit W0 W1) as (_ & A & _). destruct (A Hs) as [dk' S].
      exists dk'. econstructor; eauto.
  Qed.

  (** Opening it. *)
  Variable sorted : list N -> list nat.
  Hypothesis Hsorted : forall counts, length counts = num_slots -> perm_ok counts (sorted counts).
  Notation content wss := (fun s b => carriers (word_hash u) k m n 0 wss (N.of_nat b * N.of_nat n + N.of_nat s)).
  Theorem open_index_ok docs wss fn fs dk : disk_inv docs wss fn fs dk -> words_of (word_char u) docs wss -> docs_fit docs ->
    exists ix, open_index sorted dk = Ok ix /\ index_ok ix n (content wss) (place_of docs) /\
      ix_cfg ix = c /\ ix_dmd ix = render_dmd (zero_fields :: fs) /\ wf (ix_fnames ix) /\ skel (ix_fnames ix) = skel fn /\
      Forall (fun si => length (si_counts si) = num_slots) (ix_shards ix).
  Proof.
    intros D Ww Fit. pose proof (df_len _ Fit) as L. change (2 ^ 32) with 4294967296 in L.
    pose proof (recs_len _ _ _ (di_recs _ _ _ _ _ D)) as Lf. pose proof (words_of_len _ _ _ Ww) as Lw.
    destruct (cfg_nat _ _ _ _ O) as (En & Es & Hk & Hm & Hn0).
    unfold open_index, read_config. rewrite (di_cfg _ _ _ _ _ D), check_ok. cbn [bind].
    rewrite (di_dmd _ _ _ _ _ D). unfold dmd_file. cbn [read_some bind]. rewrite (di_fnames _ _ _ _ _ D). cbn [read_some].
    destruct (reload_spec fn (di_wf _ _ _ _ _ D)) as (fn' & E1 & W1 & S1). rewrite E1. cbn [bind]. rewrite numshards_pos, En.
    assert (BD : forall j, (j < n)%nat -> bounded (posts j wss)).
    { intros j Lj. apply posts_bounded; auto; [unfold nlen in *; lia|]. eapply words_of_small, Ww. }
    destruct (for_shards_spec (shard_open sorted) (fun j si => (j < n)%nat /\ length (si_counts si) = num_slots /\
        si_perm si = sorted (si_counts si) /\ forall s, (s < num_slots)%nat ->
          nth s (si_counts si) 0 = nlen (content_of (posts j wss) s) /\
          reads (si_file si) (new_posts (nth s (si_heads si) (-1)%Z)) (content_of (posts j wss) s)) (k_shards dk) 0 n (di_shards _ _ _ _ _ D))
      as (xs & E2 & Lx & X).
    { intros j iix pos Ej. assert (Lj : (j < n)%nat) by (rewrite <- (di_shards _ _ _ _ _ D); eapply nth_len, Ej).
      destruct (shard_open_spec sorted _ _ (di_closed _ _ _ _ _ D j _ Ej) (BD j Lj)) as (si & Eo & _ & Lc & Pm & Rd).
      exists si. split; [exact Eo|]. auto. }
    rewrite E2. cbn [bind]. eexists. split; [reflexivity|]. cbn [ix_cfg ix_dmd ix_fnames].
    cbn [ix_shards]. split; [|do 4 (split; [auto|]); apply Forall_forall; intros si Hi; apply In_nth_error in Hi; destruct Hi as [j Hj]; apply (X j si Hj)].
    assert (EQ : forall j s, (j < n)%nat -> (s < num_slots)%nat -> content_of (posts j wss) s = content wss j s).
    { intros j s Lj Ls. unfold content_of. apply posts_carriers; auto; [unfold nlen in *; lia|]. eapply words_of_small, Ww. }
    constructor; cbn [ix_shards]; auto.
    - intros s si Ei b Lb. destruct (X s si Ei) as (Ls & _ & _ & R). destruct (R b Lb) as [A B].
      rewrite EQ in A, B by auto. split; [exact B|exact A].
    - intros s si Ei. destruct (X s si Ei) as (Ls & Lc & -> & _). apply Hsorted, Lc.
    - intros s b d Ls Lb Hd. apply carriers_in in Hd. unfold nlen in Hd.
      destruct (nth_ex docs (N.to_nat (d - 1))) as [[cwd x] Ex]; [lia|].
      destruct (nth_ex fs (N.to_nat (d - 1))) as [f Ef]; [lia|].
      assert (Rc : rec_of fn f (cwd, x)).
      { clear -Ex Ef D. pose proof (di_recs _ _ _ _ _ D) as F. revert Ex Ef. generalize (N.to_nat (d - 1)). clear D.
        induction F as [|a p l l' A F IH]; intros [|i] E1 E2; cbn [nth_error] in *; try discriminate; [|eauto].
        assert (a = f) as -> by congruence. assert (p = (cwd, x)) as -> by congruence. exact A. }
      assert (WF : Forall wf_fields fs).
      { clear -D Fit. pose proof (di_recs _ _ _ _ _ D) as F. pose proof (di_wf _ _ _ _ _ D) as W. pose proof (df_ok _ Fit) as FO.
        clear D Fit. change (2 ^ 32) with 4294967296 in *. induction F as [|a p l l' (A & B & C) F IH]; [constructor|].
        inversion FO as [|? ? (O1 & O2 & O3) FO']; subst. change (2 ^ 32) with 4294967296 in *. constructor; [|auto]. split; [|split].
        - pose proof (is_path_lt fn _ _ W C). pose proof (wf_size fn W). lia.
        - rewrite A. exact O2.
        - rewrite B. exact O3. }
      unfold docid2doc. cbn [ix_dmd ix_fnames]. replace d with (N.of_nat (S (N.to_nat (d - 1)))) at 1 by lia.
      rewrite (dmd_lookup_file fs _ f WF Ef). cbn [bind]. destruct Rc as (A & B & C). cbn [fst snd] in *.
      rewrite (fn_abs_skel fn' fn) by exact S1. rewrite (fn_abs_path fn _ _ (di_wf _ _ _ _ _ D) C), parts_show. cbn [bind].
      unfold place_of. rewrite Ex, A, B. reflexivity.
  Qed.
End S.
