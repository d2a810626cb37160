(** C89-C91: dupenron's files and what it leaves. *)
From Coq Require Import String Lia.
From Verif Require Import Model.Base Model.Utf8 Model.Token Model.Blotter Model.Config Model.Run Model.Index Model.Query Model.Session Model.Crash Model.Options Model.Csv Model.Enron Model.EnronMain.
From Verif Require Import Spec.Text Spec.Fingerprint Spec.Configs Spec.Paths Spec.Reading Spec.Querying Spec.History Spec.Str Spec.Csv.
From Verif Require Import Proof.Tactics Proof.TokenP Proof.BlotterP Proof.QueryW Proof.RootP Proof.SortP Proof.SessionP Proof.SessionP2 Proof.CrashP Proof.CsvP Proof.EnronP Proof.EnronMainP.
Local Open Scope N_scope.
Local Open Scope list_scope.

(** C90: a file of comma-separated values with two fields in each record is read as these,
    with the line ends in them as newlines. *)
Theorem C90_reads : forall rs t ps, csv_text rs t -> pairs rs ps ->
  exists ps', csv_records t = (ps', Ok tt) /\ Forall2 (fun p q => newlines (fst p) (fst q) /\ newlines (snd p) (snd q)) ps ps'.
Proof.
  intros rs t ps H P. exists (map lfs ps). split; [exact (records_csv rs t ps H P)|]. clear. induction ps as [|[a b] ps IH]; constructor; [split; apply lf_newlines|exact IH].
Qed.
(** A carriage return at the end of the file is dropped. *)
Theorem C90_reads_cr : forall rs t r tr ps, lines_text rs t -> record_text r tr -> tr <> [] -> pairs (rs ++ [r]) ps ->
  exists ps', csv_records (t ++ tr ++ [13]) = (ps', Ok tt) /\ Forall2 (fun p q => newlines (fst p) (fst q) /\ newlines (snd p) (snd q)) ps ps'.
Proof.
  intros rs t r tr ps H R Ne P. exists (map lfs ps). split; [exact (records_cr rs t r tr ps H R Ne P)|]. clear. induction ps as [|[a b] ps IH]; constructor; [split; apply lf_newlines|exact IH].
Qed.
(** A record with another number of fields is an error, after the records before it. *)
Theorem C90_bad : forall rs t ps r tr rest, lines_text rs t -> pairs rs ps -> record_text r tr -> tr <> [] -> List.length r <> 2%nat ->
  rest = [] \/ (exists e x, line_end e /\ rest = e ++ x) ->
  exists ps', csv_records (t ++ tr ++ rest) = (ps', Err EOther) /\ Forall2 (fun p q => newlines (fst p) (fst q) /\ newlines (snd p) (snd q)) ps ps'.
Proof.
  intros rs t ps r tr rest H P R Ne L Hr. exists (map lfs ps). split; [|clear; induction ps as [|[a b] ps IH]; constructor; [split; apply lf_newlines|exact IH]].
  rewrite (records_lines rs t H ps (tr ++ rest) P).
  assert (X : exists x, rec_tail rest x) by (destruct Hr as [->|(e & x & He & ->)]; eexists; constructor; exact He). destruct X as [x X].
  rewrite (records_bad r tr rest x R Ne L X). cbn [fst snd]. rewrite app_nil_r. reflexivity.
Qed.
(** What the Writer writes is read back, if the line ends in it are newlines. *)
Theorem C90_round_trip : forall ps, (forall p a b, In p ps -> fst p <> a ++ 13 :: 10 :: b /\ snd p <> a ++ 13 :: 10 :: b) ->
  csv_records (List.concat (map (fun p => write_record (fst p) (snd p)) ps)) = (ps, Ok tt).
Proof.
  assert (X : forall v, (forall a b, v <> a ++ 13 :: 10 :: b) -> lf v = v).
  { induction v as [|c v IH]; intros H; [reflexivity|]. cbn [lf]. assert (Y : lf v = v) by (apply IH; intros a b ->; exact (H (c :: a) b eq_refl)). rewrite Y.
    destruct (c =? 13) eqn:E; [|reflexivity]. apply N.eqb_eq in E. subst c. destruct v as [|d v]; [reflexivity|]. destruct (d =? 10) eqn:E; [|reflexivity].
    apply N.eqb_eq in E. subst d. destruct (H [] v eq_refl). }
  intros ps H. rewrite (records_csv _ _ ps (csv_ended _ _ (written_lines ps)) eq_refl). f_equal. rewrite <- (map_id ps) at 2. apply map_ext_in.
  intros [a b] Hi. unfold lfs. cbn [fst snd]. rewrite !X; [reflexivity| |]; intros x y; apply (H (a, b) x y Hi).
Qed.
(** Whatever the bytes, reading ends with the end of the file or with an error. *)
Theorem C90_any : forall t, exists ps, csv_records t = (ps, Ok tt) \/ csv_records t = (ps, Err EOther).
Proof.
  intros t. destruct (records_total t) as [E|E]; destruct (csv_records t) as [ps e]; cbn [snd] in E; subst e; exists ps; [left|right]; reflexivity.
Qed.
Print Assumptions C90_reads.
Print Assumptions C90_reads_cr.
Print Assumptions C90_bad.
Print Assumptions C90_round_trip.
Print Assumptions C90_any.

(** name,"To: me\r\n\r\nHe said ""hi""" with an empty line before it *)
Definition ex_csv : bytes := [10] ++ bs "name," ++ [34] ++ bs "To: me" ++ [13; 10; 13; 10] ++ bs "He said " ++ [34; 34] ++ bs "hi" ++ [34; 34; 34; 10].
Example C90_example :
  csv_text [[bs "name"; bs "To: me" ++ [13; 10; 13; 10] ++ bs "He said " ++ [34] ++ bs "hi" ++ [34]]] ex_csv /\
  csv_records ex_csv = ([(bs "name", bs "To: me" ++ [10; 10] ++ bs "He said " ++ [34] ++ bs "hi" ++ [34])], Ok tt) /\
  csv_records (ex_csv ++ bs "one,two,three") = ([(bs "name", bs "To: me" ++ [10; 10] ++ bs "He said " ++ [34] ++ bs "hi" ++ [34])], Err EOther).
Proof.
  split; [|split; vm_compute; reflexivity]. constructor. unfold ex_csv. constructor; [constructor|].
  set (msg := bs "To: me" ++ [13; 10; 13; 10] ++ bs "He said " ++ [34] ++ bs "hi" ++ [34]).
  change (bs "name," ++ [34] ++ bs "To: me" ++ [13; 10; 13; 10] ++ bs "He said " ++ [34; 34] ++ bs "hi" ++ [34; 34; 34; 10])
    with ((bs "name" ++ 44 :: (34 :: escape msg ++ [34])) ++ [10] ++ []).
  constructor; [|discriminate|constructor|constructor]. constructor; [|constructor; constructor; apply escape_doubled].
  constructor. repeat split; cbn; try discriminate; intros H; repeat (destruct H as [H|H]; [discriminate|]); exact H.
Qed.

Example C90_cr_example : lines_text [] [] /\ record_text [bs "a"; bs "b"] (bs "a,b") /\ pairs ([] ++ [[bs "a"; bs "b"]]) [(bs "a", bs "b")] /\
  csv_records (bs "a,b" ++ [13]) = ([(bs "a", bs "b")], Ok tt).
Proof.
  split; [constructor|]. split; [|split; reflexivity]. change (bs "a,b") with (bs "a" ++ 44 :: bs "b").
  constructor; [|constructor]; constructor; repeat split; cbn; try discriminate; intros H; repeat (destruct H as [H|H]; [discriminate|]); exact H.
Qed.

(** C89 fails: the end of the output is always lost, and all of it if it has no more than 4096
    bytes. [text]: the first [n] records. *)
Theorem C89_lost_refuted : forall t n, let text := List.concat (map (fun p => write_record (fst p) (snd p)) (firstn (Z.to_nat n) (fst (csv_records t)))) in
  text <> [] -> nlen (o_enron (Some t) n) < nlen text /\ (nlen text <= 4096 -> o_enron (Some t) n = []).
Proof.
  intros t n text Ne. unfold o_enron. rewrite o_loop_text. fold text. rewrite (buf_flushed text Ne).
  assert (L : 1 <= nlen text) by (destruct text; [congruence|unfold nlen; cbn [List.length]; lia]). split.
  - unfold nlen at 1. rewrite firstn_length. pose proof (N.mul_div_le (nlen text - 1) 4096 ltac:(discriminate)). unfold nlen in *. lia.
  - intros B. rewrite (N.div_small (nlen text - 1) 4096) by lia. reflexivity.
Qed.
(** A file that cannot be opened is not reported, nor a record with an error; without an
    argument dupenron panics. *)
Theorem C89_silent_refuted : forall file n fname args, exists out, o_main file n (fname :: args) = (out, Status 0) /\ (file fname = None -> out = []).
Proof. intros file n fname args. eexists. split; [reflexivity|]. intros ->. reflexivity. Qed.
Theorem C89_no_file_refuted : forall file n, o_main file n [] = ([], Panics).
Proof. reflexivity. Qed.
(** What is printed: of the records, as comma-separated values, as many times 4096 bytes as
    are followed by another byte. *)
Theorem C89_prefix_partial : forall t n, exists text, csv_text (map (fun p => [fst p; snd p]) (firstn (Z.to_nat n) (fst (csv_records t)))) text /\
  o_enron (Some t) n = firstn (N.to_nat (4096 * ((nlen text - 1) / 4096))) text.
Proof.
  intros t n. exists (List.concat (map (fun p => write_record (fst p) (snd p)) (firstn (Z.to_nat n) (fst (csv_records t))))).
  split; [constructor; apply written_lines|]. unfold o_enron. rewrite o_loop_text.
  destruct (List.concat (map (fun p => write_record (fst p) (snd p)) (firstn (Z.to_nat n) (fst (csv_records t))))) eqn:E; [reflexivity|]. apply buf_flushed. discriminate.
Qed.
Print Assumptions C89_lost_refuted.
Print Assumptions C89_silent_refuted.
Print Assumptions C89_no_file_refuted.
Print Assumptions C89_prefix_partial.
(** With its default of 16 records. *)
Example C89_example : o_enron (Some ex_csv) 16 = [] /\ List.concat (map (fun p => write_record (fst p) (snd p)) (firstn 16 (fst (csv_records ex_csv)))) <> [].
Proof. split; [vm_compute; reflexivity|vm_compute; discriminate]. Qed.

(** C91 fails: whenever dupenron ends otherwise than with status 0, the index it has made cannot be
    opened, whatever was added before; and the directory keeps it from being made anew. *)
Theorem C91_lost_refuted : forall u cwd c file args fs e, enron_main u cwd c file args fs e -> e <> Status 0 ->
  (forall sorted dirs, dirs (cf_root c) = fs ->
    (exists e, open_files sorted dirs (cf_root c) = Err e) /\ (exists e, open_indexer_files dirs (cf_root c) = Err e)) /\
  (forall dirs there root o c', op_add o = false -> there (cf_root c) = true -> opt_config file cwd root o = Ok c' -> cf_root c' = cf_root c -> (0 <= cf_numshards c')%Z ->
    get_indexer dirs there file cwd root o = Err EOther).
Proof.
  intros u cwd c file args fs e H Ne. split.
  - destruct H as [fs A|fname args fs M A|fname args t rcds fs M R A|fname args t rcds dk M R S]; [| | |congruence]; exact (abandoned_fails u c _ fs A).
  - intros dirs there root o c' Ha Ht Ec Er Hn. unfold get_indexer. rewrite Ha, Ec. cbn [bind]. assert (X : (cf_numshards c' <? 0)%Z = false) by lia. rewrite X, Er, Ht. reflexivity.
Qed.
(** This is what happens to a file with a record of one or three fields, say, and to one that is not there. *)
Theorem C91_reached : forall u cwd c k m n file, cfg_full c k m n -> (0 < cf_numshatters c)%Z -> rooted cwd ->
  (exists fs, enron_main u cwd c file [] fs Panics) /\
  forall fname args, (file fname = None -> exists fs, enron_main u cwd c file (fname :: args) fs (Status 1)) /\
    forall t rcds, file fname = Some t -> csv_records t = (rcds, Err EOther) -> nlen rcds < 2 ^ 32 - 1 ->
    nlen rcds * nlen (show_abs (spec_abs cwd fname)) < 2 ^ 32 - 1 -> exists fs, enron_main u cwd c file (fname :: args) fs (Status 1).
Proof.
  intros u cwd c k m n file F Hs Rc.
  assert (Fit0 : docs_fit []) by (constructor; [constructor|reflexivity|reflexivity]).
  destruct (abandoned_exists u c k m n [] F Hs Fit0) as [fs0 A0]. split; [exists fs0; constructor; exact A0|]. intros fname args. split.
  - intros E. exists fs0. apply enron_missing; assumption.
  - intros t rcds E R L P. destruct (abandoned_exists u c k m n _ F Hs (enron_fit cwd fname rcds 0 Rc L P)) as [fs A].
    exists fs. eapply enron_bad; eauto.
Qed.
(** When dupenron ends with status 0: queries find exactly the records whose text after the
    header has the blot. *)
Theorem C91_found_partial : forall u c k m n, cfg_full c k m n -> cfg_values c ->
  forall sorted cwd file fname args t rs ps fs, sorts sorted -> rooted cwd -> file fname = Some t -> csv_text rs t -> pairs rs ps ->
  nlen ps < 2 ^ 32 - 1 -> nlen ps * nlen (show_abs (spec_abs cwd fname)) < 2 ^ 32 - 1 ->
  forall e, enron_main u cwd c file (fname :: args) fs e ->
  e = Status 0 /\ exists docs, Forall2 (fun p d => fst d = cwd /\ d_path (snd d) = fname /\ exists msg, newlines (snd p) msg /\ body msg (d_dat (snd d))) ps docs /\
  forall wss dirs, words_of (word_char u) docs wss -> dirs (cf_root c) = fs ->
  exists ix, open_files sorted dirs (cf_root c) = Ok ix /\ forall grow blot fuel, (List.length ps < fuel)%nat ->
  exists ds, query_get grow ix fuel blot None = Ok ds /\
    docs_keys ds = map (place_of docs) (carriers (word_hash u) k m n 0 wss (blot mod (N.of_nat n * 65536))).
Proof.
  intros u c k m n F V sorted cwd file fname args t rs ps fs Hs Rc Ef Ht Hp L P e H.
  pose proof (records_csv rs t ps Ht Hp) as R.
  assert (X : e = Status 0 /\ exists dk, fs = files_of dk /\ session u (create_indexer c) (map (pair cwd) (enron_docs fname 0 (map lfs ps))) dk).
  { inversion H as [|? ? ? M|? ? ? ? ? M R'|? ? ? ? dk M R' S]; subst; try congruence. assert (t0 = t) by congruence. subst t0. rewrite R in R'. injection R' as <-. split; [reflexivity|]. eauto. }
  destruct X as (-> & dk & -> & Ss). split; [reflexivity|]. exists (map (pair cwd) (enron_docs fname 0 (map lfs ps))).
  assert (Fit : docs_fit (map (pair cwd) (enron_docs fname 0 (map lfs ps)))) by (apply enron_fit; [exact Rc| |]; unfold nlen in *; rewrite map_length; assumption).
  assert (B : Forall2 (fun p d => fst d = cwd /\ d_path (snd d) = fname /\ exists msg, newlines (snd p) msg /\ body msg (d_dat (snd d))) ps (map (pair cwd) (enron_docs fname 0 (map lfs ps)))).
  { pose proof (enron_bodies fname (map lfs ps) 0) as B. clear -B. remember (enron_docs fname 0 (map lfs ps)) as l. clear Heql. revert l B.
    induction ps as [|p ps IH]; intros l B; inversion B as [|? ? ? ? [B1 B2]]; subst; constructor; [|apply IH; assumption].
    cbn [fst snd]. split; [reflexivity|]. split; [reflexivity|]. exists (lf (snd p)). split; [apply lf_newlines|exact B2]. }
  split; [exact B|]. intros wss dirs Ww Ed.
  pose proof (history_create u c _ dk Ss) as Hi. rewrite <- (all_docs_one (map (pair cwd) _)) in Fit, Ww.
  destruct (query_exact u c k m n sorted F Hs _ dk wss Hi Fit Ww) as (ix & Ei & Q). exists ix.
  pose proof (history_cfg u c _ dk Hi) as Kc.
  destruct (open_files_of c k m n F V sorted dirs dk Ed Kc) as [Eo _]. rewrite Eo. split; [exact Ei|]. intros grow blot fuel Hf.
  rewrite all_docs_one in Q. apply Q. rewrite <- (Forall2_len _ _ _ B). exact Hf.
Qed.
Print Assumptions C91_lost_refuted.
Print Assumptions C91_reached.
Print Assumptions C91_found_partial.

Example C91_example : cfg_full wit_config 1 10 2 /\ (0 < cf_numshatters wit_config)%Z /\ rooted (bs "/home") /\
  csv_records (bs "a,b" ++ [10] ++ bs "c") = ([(bs "a", bs "b")], Err EOther) /\
  csv_text [[bs "a"; bs "b"]] (bs "a,b") /\ pairs [[bs "a"; bs "b"]] [(bs "a", bs "b")].
Proof.
  split; [exact wit_full|]. split; [reflexivity|]. split; [eexists; reflexivity|]. split; [reflexivity|]. split; [|reflexivity].
  apply (csv_open [] [] _ (bs "a" ++ 44 :: bs "b")); [constructor| |discriminate].
  constructor; [|constructor]; constructor; repeat split; cbn; try discriminate; intros H; repeat (destruct H as [H|H]; [discriminate|]); exact H.
Qed.
