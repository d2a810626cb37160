(** C76: an index whose files contain anything. *)
From Coq Require Import String.
From Verif Require Import Model.Base Model.Varint Model.Utf8 Model.Token Model.Blotter Model.Post Model.Address Model.Poster Model.Shatter Model.Shard Model.Dmd Model.Fnames Model.Conc Model.Config Model.Json Model.Run Model.Index Model.Query Model.Session Model.Crash.
From Verif Require Import Spec.Text Spec.Fingerprint Spec.Configs Spec.Paths Spec.Reading Spec.Querying Spec.History Spec.Str Spec.Damaged.
From Verif Require Import Proof.Tactics Proof.VarintP Proof.PosterP Proof.DmdP Proof.FnamesP Proof.TokenP Proof.BlotterP Proof.ShardP Proof.QueryP Proof.QueryW Proof.SortP Proof.SessionP Proof.SessionP2 Proof.CrashP Proof.CrashP2 Proof.RootP Proof.ConcP Proof.ConcRun Proof.DamagedP Proof.DamagedP2 Proof.DamagedP3.
From Verif Require Import Props.Query.
Local Open Scope N_scope.
Local Open Scope list_scope.

(** C76: "Whatever bytes the files of an index contain, opening it gives an index or an error,
    and a query gives its documents or an error: there is no crash and no endless loop."

    Refuted below, for every history; what holds is stated first: the meaning of arbitrary
    bytes (Spec/Damaged) decides exactly when each of the four happens. *)
Section Files.
  Variables (sorted : list N -> list nat) (dirs : bytes -> files) (root : bytes).
  Notation opened_ := (open_files sorted dirs root).

  (** The tables of the first [n] shards are there, each with all its slots. *)
  Definition tables (fs : files) (n : Z) : Prop := forall i, (Z.of_nat i < n)%Z -> exists iix pos hs,
    nth_error (w_shards fs) i = Some (Some iix, Some pos) /\ slots iix hs /\ List.length hs = num_slots.
  (** What opening an index that has a configuration does. *)
  Theorem C76_open c : Json.read_config (w_cfg (dirs root)) = Ok c -> let fs := dirs (cf_root c) in
    ((exists ix, opened_ = Ok ix) <-> exists d f es, w_dmd fs = Some d /\ w_fnames fs = Some f /\ names_good f es /\ (0 <= cf_numshards c)%Z /\ tables fs (cf_numshards c)) /\
    (opened_ = Panic <-> exists d f, w_dmd fs = Some d /\ w_fnames fs = Some f /\ (names_bad f \/ (exists es, names_good f es) /\ (cf_numshards c < 0)%Z)) /\
    opened_ <> Loop.
  Proof.
    intros Ec fs. unfold open_files. rewrite Ec. cbn [bind]. fold fs.
    destruct (w_dmd fs) as [d|]; cbn [read_some bind].
    2:{ split; [|split]; [split|split|discriminate]; try (intros (? & ?); discriminate); try discriminate.
        - intros (d & f & es & X & _). discriminate.
        - intros (d & f & X & _). discriminate. }
    destruct (w_fnames fs) as [f|]; cbn [read_some].
    2:{ cbn [bind]. split; [|split]; [split|split|discriminate]; try (intros (? & ?); discriminate); try discriminate.
        - intros (d0 & f & es & _ & X & _). discriminate.
        - intros (d0 & f & _ & X & _). discriminate. }
    destruct (read_names f) as (G & B & _). destruct (read_names_inv f) as (Gi & Bi & Li).
    destruct (read_fnames f) as [fn|e| |] eqn:Ef; cbn [bind].
    - destruct (Z.ltb_spec (cf_numshards c) 0) as [Ln|Ln].
      + split; [|split; [|discriminate]].
        * split; [intros (? & ?); discriminate|]. intros (d0 & f0 & es & _ & _ & _ & X & _). lia.
        * split; [|reflexivity]. intros _. exists d, f. split; [reflexivity|]. split; [reflexivity|]. right. eauto.
      + pose proof (for_files_err (shard_open sorted) (shard_open_err sorted) (Z.to_nat (cf_numshards c)) (w_shards fs)) as Q.
        split; [split|split; [split|]].
        * intros (ix & E). destruct (for_files _ _ _) as [xs| | |] eqn:Ex; try discriminate. exists d, f, (map key fn). split; [reflexivity|]. split; [reflexivity|]. split; [apply Gi; reflexivity|].
          split; [exact Ln|]. intros i Li'. apply for_files_nth in Ex. destruct Ex as [_ Ex]. destruct (Ex i ltac:(lia)) as (iix & pos & x & E1 & _ & E3).
          apply shard_open_is in E3. exists iix, pos, (si_heads x). destruct E3 as (H1 & H2 & _). auto.
        * intros (d0 & f0 & es & _ & _ & _ & _ & T). destruct (for_files_all (shard_open sorted) (Z.to_nat (cf_numshards c)) (w_shards fs)) as (xs & ->); [|cbn [bind]; eexists; reflexivity].
          intros i Li'. destruct (T i ltac:(lia)) as (iix & pos & hs & E1 & H1 & H2). destruct (proj1 (shard_open_slots sorted iix pos)) as (s & E); [exists hs; auto|].
          exists iix, pos, s. auto.
        * intros X. exfalso. destruct Q as [(xs & E)|(e & E)]; rewrite E in X; discriminate.
        * intros (d0 & f0 & E1 & E2 & [X|[_ X]]); [|lia]. injection E2 as <-. specialize (B X). discriminate.
        * destruct Q as [(xs & ->)|(e & ->)]; discriminate.
    - split; [|split; [|discriminate]]; (split; [try (intros (? & ?)); discriminate|]).
      + intros (d0 & f0 & es & _ & E2 & X & _). injection E2 as <-. destruct (G _ X) as (? & ? & _). discriminate.
      + intros (d0 & f0 & _ & E2 & [X|[(es & X) _]]); injection E2 as <-; [specialize (B X); discriminate|]. destruct (G _ X) as (? & ? & _). discriminate.
    - split; [|split; [|discriminate]].
      + split; [intros (? & ?); discriminate|]. intros (d0 & f0 & es & _ & E2 & X & _). injection E2 as <-. destruct (G _ X) as (? & ? & _). discriminate.
      + split; [|reflexivity]. intros _. exists d, f. split; [reflexivity|]. split; [reflexivity|]. left. apply Bi. reflexivity.
    - destruct (Li eq_refl).
  Qed.
  (** Without a configuration that can be read it is an error. *)
  Theorem C76_config : (exists c, Json.read_config (w_cfg (dirs root)) = Ok c) \/ (exists e, Json.read_config (w_cfg (dirs root)) = Err e) /\ exists e, opened_ = Err e.
  Proof.
    unfold open_files, Json.read_config. destruct (w_cfg (dirs root)) as [b|]; [|right; split; eexists; reflexivity].
    destruct (unmarshal b) as [c|]; [|right; split; eexists; reflexivity]. unfold cfg_check.
    destruct (_ =? _)%Z; cbn [bind]; [left; eexists; reflexivity|right; split; eexists; reflexivity].
  Qed.

  (** What a query of a blot does. *)
  Hypothesis Bytes : forall r, (forall d, w_dmd (dirs r) = Some d -> Forall is_byte d) /\ (forall i iix pos, nth_error (w_shards (dirs r)) i = Some (iix, Some pos) -> Forall is_byte pos).
  Theorem C76_get_partial c ix : Json.read_config (w_cfg (dirs root)) = Ok c -> opened_ = Ok ix -> let fs := dirs (cf_root c) in
    (cf_numshards c = 0%Z -> forall grow fuel blot ds, query_get grow ix fuel blot ds = Panic) /\
    ((0 < cf_numshards c < 4294967296)%Z -> forall blot, let n := Z.to_N (cf_numshards c) in
     exists d f es iix pos hs h, w_dmd fs = Some d /\ w_fnames fs = Some f /\ names_good f es /\
       nth_error (w_shards fs) (N.to_nat (blot mod n)) = Some (Some iix, Some pos) /\
       slots iix hs /\ List.length hs = num_slots /\ nth_error hs (N.to_nat (blot / n mod 65536)) = Some h /\
       forall grow, let get fuel := query_get grow ix fuel blot None in
       (forall ids keys, complete d es pos h ids keys -> forall fuel, (List.length ids < fuel)%nat -> exists ds, get fuel = Ok ds /\ docs_keys ds = keys) /\
       (forall fuel ds, get fuel = Ok ds -> exists ids, complete d es pos h ids (docs_keys ds)) /\
       ((exists fuel, get fuel = Panic) <-> crashes d es pos h) /\
       ((forall fuel, get fuel = Loop) <-> endless d es pos h)).
  Proof.
    intros Ec E fs. unfold open_files in E. rewrite Ec in E. cbn [bind] in E. fold fs in E.
    destruct (w_dmd fs) as [d|] eqn:Ed; try discriminate. cbn [read_some bind] in E. destruct (w_fnames fs) as [f|] eqn:Ef; try discriminate. cbn [read_some] in E.
    destruct (read_fnames f) as [fn| | |] eqn:Efn; try discriminate. cbn [bind] in E.
    destruct (Z.ltb_spec (cf_numshards c) 0) as [Ln|Ln]; [discriminate|].
    destruct (for_files _ _ _) as [xs| | |] eqn:Ex; try discriminate. cbn [bind] in E. injection E as <-.
    apply for_files_nth in Ex. destruct Ex as [Lx Ex]. pose proof (proj1 (read_names_inv f) fn Efn) as Ng.
    split.
    - intros Z0 grow fuel blot ds. unfold query_get. cbn [ix_shards]. assert (xs = []) as -> by (destruct xs; [reflexivity|]; cbn [List.length] in Lx; lia). reflexivity.
    - intros Lc blot n. set (i := N.to_nat (blot mod n)). set (j := N.to_nat (blot / n mod 65536)).
      assert (Li : (i < Z.to_nat (cf_numshards c))%nat). { pose proof (N.mod_upper_bound blot n ltac:(unfold n; lia)). unfold i, n in *. lia. }
      destruct (Ex i Li) as (iix & pos & s & E1 & E2 & E3). apply shard_open_is in E3. destruct E3 as (Hs & Hl & Hf).
      assert (Lj : (j < num_slots)%nat). { pose proof (N.mod_upper_bound (blot / n) 65536 ltac:(discriminate)) as X. unfold j. clear -X. unfold num_slots. lia. }
      destruct (nth_error (si_heads s) j) as [h|] eqn:Eh; [|apply nth_error_None in Eh; rewrite Hl in Eh; clear -Eh Lj; revert Eh Lj; generalize num_slots; intros; lia].
      exists d, f, (map key fn), iix, pos, (si_heads s), h. split; [reflexivity|]. split; [reflexivity|]. split; [exact Ng|]. split; [exact E1|]. split; [exact Hs|]. split; [exact Hl|]. split; [exact Eh|].
      intros grow. set (ix := MkIndex c d fn xs).
      assert (Eg : forall fuel, query_get grow ix fuel blot None = get_loop grow ix fuel false pos (new_posts h) None).
      { intros fuel. unfold query_get, ix at 1 2. cbn [ix_shards].
        assert (u32 (nlen xs) = n) as ->. { unfold u32, nlen, n. rewrite Lx. clear -Lc. rewrite N.mod_small by lia. lia. }
        unfold get_address. destruct (N.eqb_spec n 0) as [X|_]; [exfalso; unfold n in X; clear -X Lc; lia|]. cbn [bind]. fold i. rewrite E2. unfold u16.
        fold j. unfold read_state_for, read_state_for_blot_at. cbn [rs_posts is_nil negb]. rewrite Hf. rewrite (nth_error_nth _ _ (-1)%Z Eh). reflexivity. }
      destruct (Bytes (cf_root c)) as [Bd Bp]. fold fs in Bd, Bp. specialize (Bd d Ed). specialize (Bp i _ _ E1).
      assert (K : map key (ix_fnames ix) = map key fn) by reflexivity. pose proof (proj2 Ng) as Fp. change d with (ix_dmd ix) in Bd.
      split; [|split; [|split]].
      + intros ids keys Cm fuel L. rewrite Eg. exact (get_complete grow ix _ K Bd pos Bp h ids keys Cm fuel L).
      + intros fuel ds Ek. rewrite Eg in Ek. exact (get_ok grow ix _ K Fp Bd pos Bp h fuel ds Ek).
      + split.
        * intros (fuel & Ek). rewrite Eg in Ek. exact (get_panic grow ix _ K Fp Bd pos Bp h fuel Ek).
        * intros Cr. destruct (get_crashes grow ix _ K Bd pos Bp h Cr) as (m & Hm). exists (S m). rewrite Eg. apply Hm. apply Nat.lt_succ_diag_r.
      + split.
        * intros Ek. apply (get_loops grow ix _ K Fp Bd pos Bp h). intros fuel. rewrite <- Eg. apply Ek.
        * intros En fuel. rewrite Eg. exact (get_endless grow ix _ K Fp Bd pos Bp h En fuel).
  Qed.
End Files.
Print Assumptions C76_open.
Print Assumptions C76_config.
Print Assumptions C76_get_partial.

(** For every history there are bytes for one of its files that make these things happen. *)
Lemma put_be64_bytes x : List.length (put_be64 x) = 8%nat /\ Forall is_byte (put_be64 x).
Proof. split; [reflexivity|]. unfold put_be64. repeat apply Forall_cons; try apply Forall_nil; unfold is_byte, u8; apply N.mod_upper_bound; discriminate. Qed.
Section ForShards.
  Context {A : Type} (g : bytes -> bytes -> result A).
  Lemma for_shards_nth n : forall l xs, for_shards g n l = Ok xs -> List.length xs = n /\
    forall i, (i < n)%nat -> exists iix pos x, nth_error l i = Some (iix, pos) /\ nth_error xs i = Some x /\ g iix pos = Ok x.
  Proof.
    induction n as [|n IH]; intros l xs E; cbn [for_shards] in E; [injection E as <-; split; [reflexivity|]; intros; lia|].
    destruct l as [|[iix pos] l]; [discriminate|]. destruct (g iix pos) as [x| | |] eqn:Eg; try discriminate. cbn [bind] in E.
    destruct (for_shards g n l) as [ys| | |] eqn:Ey; try discriminate. injection E as <-. destruct (IH _ _ Ey) as [L H]. split; [cbn [List.length]; lia|].
    intros [|i] Li; cbn [nth_error]; [exists iix, pos, x; auto|apply H; lia].
  Qed.
  Lemma for_shards_upd n : forall l xs i iix pos pos' s s', for_shards g n l = Ok xs -> nth_error l i = Some (iix, pos) -> nth_error xs i = Some s -> g iix pos' = Ok s' ->
    exists xs', for_shards g n (upd i (iix, pos') l) = Ok xs' /\ List.length xs' = List.length xs /\ nth_error xs' i = Some s'.
  Proof.
    induction n as [|n IH]; intros l xs i iix pos pos' s s' E E1 E2 E3; cbn [for_shards] in E; [injection E as <-; destruct i; discriminate|].
    destruct l as [|[a b] l]; [discriminate|]. destruct (g a b) as [x| | |] eqn:Eg; try discriminate. cbn [bind] in E.
    destruct (for_shards g n l) as [ys| | |] eqn:Ey; try discriminate. injection E as <-. destruct i as [|i]; cbn [upd for_shards nth_error] in *.
    - injection E1 as -> ->. rewrite E3. cbn [bind]. rewrite Ey. cbn [bind]. eexists. split; [reflexivity|]. auto.
    - destruct (IH _ _ _ _ _ _ _ _ Ey E1 E2 E3) as (xs' & E' & L & Nn). rewrite Eg. cbn [bind]. rewrite E'. cbn [bind]. eexists. split; [reflexivity|]. cbn [List.length nth_error]. auto.
  Qed.
End ForShards.
Lemma open_index_is sorted dk c ix : k_cfg dk = Some c -> open_index sorted dk = Ok ix -> exists dm fn xs, ix = MkIndex c dm fn xs /\
  for_shards (shard_open sorted) (Z.to_nat (cf_numshards c)) (k_shards dk) = Ok xs /\
  forall l xs', for_shards (shard_open sorted) (Z.to_nat (cf_numshards c)) l = Ok xs' ->
    open_index sorted (MkDisk (k_cfg dk) (k_dmd dk) (k_fnames dk) l) = Ok (MkIndex c dm fn xs').
Proof.
  intros Kc E. unfold open_index, read_config in *. cbn [k_cfg k_dmd k_fnames k_shards] in *. rewrite Kc in *. generalize dependent (shard_open sorted). intros g E.
  cbn [bind] in *. destruct (cfg_check c); try discriminate. cbn [bind] in *. destruct (read_some Ok (k_dmd dk)) as [dm| | |]; try discriminate. cbn [bind] in *.
  destruct (read_some read_fnames (k_fnames dk)) as [fn| | |]; try discriminate. cbn [bind] in *. destruct (cf_numshards c <? 0)%Z; [discriminate|].
  destruct (for_shards g _ (k_shards dk)) as [xs| | |]; try discriminate. cbn [bind] in E. injection E as <-. exists dm, fn, xs. split; [reflexivity|]. split; [reflexivity|].
  intros l xs' ->. reflexivity.
Qed.
Lemma shard_open_other sorted iix pos pos' s : shard_open sorted iix pos = Ok s -> exists s', shard_open sorted iix pos' = Ok s' /\ si_heads s' = si_heads s /\ si_file s' = pos'.
Proof. unfold shard_open. generalize num_slots as q. intros q E. destruct (read_table q iix); try discriminate. injection E as <-. eexists. split; [reflexivity|]. auto. Qed.
Definition slot_of_ (n : nat) (blot : N) : nat := N.to_nat (u16 (blot / N.of_nat n)).
Lemma slot_lt n blot : (slot_of_ n blot < num_slots)%nat.
Proof. pose proof (N.mod_upper_bound (blot / N.of_nat n) 65536 ltac:(discriminate)) as X. unfold slot_of_, u16, num_slots. lia. Qed.
Lemma slots_head iix hs j h : slots iix hs -> nth_error hs j = Some h -> (h < 9223372036854775808)%Z.
Proof.
  intros Hs Eh. apply nth_error_In in Eh. induction Hs as [|s1 n1 s2 n2 b r hs N1 _ _ _ _ IH]; [destruct Eh|]. destruct Eh as [<-|X]; [|exact (IH X)].
  destruct N1 as (_ & _ & L). change (2 ^ 64) with 18446744073709551616 in L. unfold signed. assert (n1 / 2 < 9223372036854775808) by (apply N.div_lt_upper_bound; [discriminate|exact L]).
  destruct (N.even n1); lia.
Qed.
Lemma get_at n blot c dm fn xs s pos h : (0 < n)%nat -> N.of_nat n < 65536 -> List.length xs = n -> nth_error xs (N.to_nat (blot mod N.of_nat n)) = Some s -> si_file s = pos ->
  nth_error (si_heads s) (slot_of_ n blot) = Some h ->
  forall grow fuel ds, query_get grow (MkIndex c dm fn xs) fuel blot ds = get_loop grow (MkIndex c dm fn xs) fuel (negb (is_nil ds)) pos (new_posts h) ds.
Proof.
  intros Hp Hn Lx Es Ef Eh grow fuel ds. unfold query_get. cbn [ix_shards].
  assert (u32 (nlen xs) = N.of_nat n) as -> by (unfold u32, nlen; rewrite Lx; apply N.mod_small; clear -Hn; lia).
  unfold get_address. destruct (N.eqb_spec (N.of_nat n) 0) as [X|_]; [exfalso; clear -X Hp; lia|]. cbn [bind]. rewrite Es.
  unfold read_state_for, read_state_for_blot_at. cbn [rs_posts]. fold (slot_of_ n blot). rewrite Ef, (nth_error_nth _ _ (-1)%Z Eh). reflexivity.
Qed.
Section Refuted.
  Variables (u : unicode) (c : config) (k m n : nat) (sorted : list N -> list nat).
  Hypothesis F : cfg_full c k m n.
  Hypothesis V : cfg_values c.
  Hypothesis S : sorts sorted.
  Variables (ss : list (list (bytes * doc))) (dk : disk) (wss : list (list bytes)).
  Hypothesis Hi : history u c ss dk.
  Hypothesis Fit : docs_fit (all_docs ss).
  Hypothesis Ww : words_of (word_char u) (all_docs ss) wss.
  Notation having := (carriers (word_hash u) k m n 0 wss).

  (** Other bytes in the file of names, or in the posting file of shard [i]. *)
  Definition other_names (f : bytes) : disk := MkDisk (k_cfg dk) (k_dmd dk) (Some f) (k_shards dk).
  Definition other_posts (i : nat) (iix pos : bytes) : disk := MkDisk (k_cfg dk) (k_dmd dk) (k_fnames dk) (upd i (iix, pos) (k_shards dk)).

  (** One name, whose parent is number 5: no index and no error. *)
  Theorem C76_open_refuted dirs : dirs (cf_root c) = files_of (other_names [1; 0; 5]) -> open_files sorted dirs (cf_root c) = Panic.
  Proof.
    intros Ed. pose proof (history_cfg u c ss dk Hi) as Kc. destruct (open_files_of c k m n F V sorted dirs (other_names [1; 0; 5]) Ed Kc) as [-> _].
    destruct (opened u c k m n sorted F S ss dk wss Hi Fit Ww) as (ix & E & _). unfold open_index, read_config, other_names in *. cbn [k_cfg k_dmd k_fnames k_shards] in *.
    rewrite Kc in *. cbn [bind] in *. destruct (cfg_check c); try discriminate. cbn [bind] in *. destruct (read_some Ok (k_dmd dk)); try discriminate. reflexivity.
  Qed.

  (** What a query reads, and where. *)
  Lemma shard_at blot : exists iix pos h s, nth_error (k_shards dk) (N.to_nat (blot mod N.of_nat n)) = Some (iix, pos) /\ (h < 9223372036854775808)%Z /\
    shard_open sorted iix pos = Ok s /\
    exists ix, open_index sorted dk = Ok ix /\ nth_error (ix_shards ix) (N.to_nat (blot mod N.of_nat n)) = Some s /\
      (forall grow fuel ds, query_get grow ix fuel blot ds = get_loop grow ix fuel (negb (is_nil ds)) pos (new_posts h) ds) /\
      forall pos' dirs, dirs (cf_root c) = files_of (other_posts (N.to_nat (blot mod N.of_nat n)) iix pos') -> exists ix', open_files sorted dirs (cf_root c) = Ok ix' /\
        ix_dmd ix' = ix_dmd ix /\ ix_fnames ix' = ix_fnames ix /\
        forall grow fuel ds, query_get grow ix' fuel blot ds = get_loop grow ix' fuel (negb (is_nil ds)) pos' (new_posts h) ds.
  Proof.
    pose proof (history_cfg u c ss dk Hi) as Kc. destruct (opened u c k m n sorted F S ss dk wss Hi Fit Ww) as (ix & E & I).
    pose proof F as [O Hn _]. destruct (cfg_nat _ _ _ _ O) as (En & _ & _ & _ & Hp).
    set (i := N.to_nat (blot mod N.of_nat n)).
    assert (Li : (i < n)%nat). { pose proof (N.mod_upper_bound blot (N.of_nat n) ltac:(lia)). unfold i. lia. }
    pose proof (slot_lt n blot) as Lj.
    destruct (open_index_is sorted dk c ix Kc E) as (dm & fn & xs & -> & Ex & Op). rewrite En in Ex, Op.
    destruct (for_shards_nth _ _ _ _ Ex) as [Lx Ex0]. destruct (Ex0 i Li) as (iix & pos & s & E1 & E2 & E3).
    destruct (shard_open_is _ _ _ _ E3) as (Hs & Hl & Hf). rewrite <- Hl in Lj.
    destruct (nth_error (si_heads s) (slot_of_ n blot)) as [h|] eqn:Eh; [|apply nth_error_None in Eh; exfalso; clear -Eh Lj; lia].
    exists iix, pos, h, s. split; [exact E1|]. split; [exact (slots_head _ _ _ _ Hs Eh)|]. split; [exact E3|].
    exists (MkIndex c dm fn xs). split; [exact E|]. cbn [ix_shards ix_dmd ix_fnames]. split; [exact E2|].
    split; [exact (get_at n blot c dm fn xs s pos h Hp Hn Lx E2 Hf Eh)|]. intros pos' dirs Edr.
    destruct (open_files_of c k m n F V sorted dirs (other_posts i iix pos') Edr Kc) as [-> _].
    destruct (shard_open_other sorted iix pos pos' s E3) as (s' & E3' & Eh' & Ef'). rewrite <- Eh' in Eh.
    destruct (for_shards_upd _ _ _ _ i iix pos pos' s s' Ex E1 E2 E3') as (xs' & Ex' & Lx' & E2').
    exists (MkIndex c dm fn xs'). split; [exact (Op _ _ Ex')|]. cbn [ix_dmd ix_fnames]. split; [reflexivity|]. split; [reflexivity|].
    rewrite Lx in Lx'. exact (get_at n blot c dm fn xs' s' pos' h Hp Hn Lx' E2' Ef' Eh).
  Qed.
  (** The first byte of the list of a blot that some document has. *)
  Lemma first_byte blot : having (blot mod (N.of_nat n * 65536)) <> [] -> exists iix a x b h s, nth_error (k_shards dk) (N.to_nat (blot mod N.of_nat n)) = Some (iix, a ++ x :: b) /\
    zlen a = h /\ (h < 9223372036854775808)%Z /\
    exists ix, open_index sorted dk = Ok ix /\ nth_error (ix_shards ix) (N.to_nat (blot mod N.of_nat n)) = Some s /\
      forall pos' dirs, dirs (cf_root c) = files_of (other_posts (N.to_nat (blot mod N.of_nat n)) iix pos') -> exists ix', open_files sorted dirs (cf_root c) = Ok ix' /\
        ix_dmd ix' = ix_dmd ix /\ ix_fnames ix' = ix_fnames ix /\
        forall grow fuel ds, query_get grow ix' fuel blot ds = get_loop grow ix' fuel (negb (is_nil ds)) pos' (new_posts h) ds.
  Proof.
    intros Hh. destruct (shard_at blot) as (iix & pos & h & s & E1 & L & E3 & ix & E & E2 & Q & R).
    destruct (query_exact u c k m n sorted F S ss dk wss Hi Fit Ww) as (ix0 & E0 & X). assert (ix0 = ix) as -> by congruence.
    destruct (X (fun _ => 0%nat) blot (Datatypes.S (List.length (all_docs ss))) ltac:(lia)) as (ds & G & Kd).
    rewrite Q in G. cbn [get_loop is_nil negb andb] in G. unfold posts_next, new_posts in G. cbn [r_i r_docids r_nextpos List.length Nat.eqb] in G.
    destruct (Z.eqb_spec h (-1)) as [Eh|Nh].
    { exfalso. cbn [bind] in G. injection G as <-. destruct (having _) as [|y l] eqn:El in Kd; [apply Hh; exact El|discriminate]. }
    unfold read_next in G. cbn [r_nextpos] in G. destruct (varint_at_cases pos h) as [(sb & v & Hl & Nv & _)|[_ (e & Ev)]].
    2:{ exfalso. rewrite Ev in G. discriminate. }
    destruct Hl as (a & b & -> & La). destruct sb as [|y sb]; [destruct Nv as (Nv & _); inversion Nv|]. exists iix, a, y, (sb ++ b), h, s. cbn [app] in E1. split; [exact E1|]. split; [exact La|]. split; [exact L|].
    exists ix. auto.
  Qed.

  (** One other byte, 1 in place of the first of the list. *)
  Theorem C76_get_refuted blot : having (blot mod (N.of_nat n * 65536)) <> [] ->
    exists i iix a x b, nth_error (k_shards dk) i = Some (iix, a ++ x :: b) /\
    forall dirs, dirs (cf_root c) = files_of (other_posts i iix (a ++ 1 :: b)) -> exists ix, open_files sorted dirs (cf_root c) = Ok ix /\
    forall grow fuel, (0 < fuel)%nat -> query_get grow ix fuel blot None = Panic.
  Proof.
    intros Hh. destruct (first_byte blot Hh) as (iix & a & x & b & h & s & E1 & La & L & ix & E & E2 & R).
    exists (N.to_nat (blot mod N.of_nat n)), iix, a, x, b. split; [exact E1|]. intros dirs Ed. destruct (R _ dirs Ed) as (ix' & E' & _ & _ & Q).
    exists ix'. split; [exact E'|]. intros grow fuel Lf. rewrite Q. destruct fuel as [|fuel]; [lia|]. cbn [get_loop is_nil negb andb].
    unfold posts_next, new_posts. cbn [r_i r_docids r_nextpos List.length Nat.eqb]. destruct (Z.eqb_spec h (-1)) as [X|_]; [unfold zlen in La; lia|].
    unfold read_next. cbn [r_nextpos]. destruct (varint_at_cases (a ++ 1 :: b) h) as [(sb & v & Hl & Nv & ->)|[Nn _]].
    2:{ exfalso. refine (Nn [1] 1 _ _); [exists a, b; auto|]. split; [constructor; reflexivity|]. split; [cbn; lia|reflexivity]. }
    assert (Hl1 : lies_at (a ++ 1 :: b) h [1]) by (exists a, b; auto). assert (N1 : number [1] 1) by (split; [constructor; reflexivity|split; [cbn; lia|reflexivity]]).
    destruct (lies_number _ _ _ _ _ _ Hl Nv Hl1 N1) as [-> ->]. reflexivity.
  Qed.
  (** A list of one document that goes on with itself. *)
  Theorem C76_loop_refuted blot : having (blot mod (N.of_nat n * 65536)) <> [] ->
    exists i iix pos pos', nth_error (k_shards dk) i = Some (iix, pos) /\
    forall dirs, dirs (cf_root c) = files_of (other_posts i iix pos') -> exists ix, open_files sorted dirs (cf_root c) = Ok ix /\
    forall grow fuel, query_get grow ix fuel blot None = Loop.
  Proof.
    intros Hh. destruct (first_byte blot Hh) as (iix & a & x & b & h & s & E1 & La & L & ix & E & E2 & R).
    assert (L0 : (0 <= h)%Z) by (unfold zlen in La; lia).
    set (pos' := repeat 0 (Z.to_nat h) ++ ([18] ++ [0] ++ put_be64 (Z.to_N h)) ++ []). destruct (put_be64_bytes (Z.to_N h)) as [Lp Fp].
    exists (N.to_nat (blot mod N.of_nat n)), iix, (a ++ x :: b), pos'. split; [exact E1|]. intros dirs Ed. destruct (R _ dirs Ed) as (ix' & E' & D1 & D2 & Q).
    exists ix'. split; [exact E'|]. intros grow fuel. rewrite Q. cbn [is_nil negb].
    assert (Fb : Forall is_byte pos').
    { unfold pos'. repeat (apply Forall_app; split); [apply Forall_forall; intros z Hz; apply repeat_spec in Hz; subst z; reflexivity|repeat constructor|repeat constructor|exact Fp|constructor]. }
    assert (Ch : chunk pos' h [0] h).
    { exists [18], 18, [0], (put_be64 (Z.to_N h)). split; [exists (repeat 0 (Z.to_nat h)), []; split; [reflexivity|unfold zlen; rewrite repeat_length; lia]|].
      split; [split; [constructor; reflexivity|split; [cbn; lia|reflexivity]]|]. split; [reflexivity|]. split; [unfold zlen; cbn [List.length]; lia|]. split; [exact Lp|].
      split; [apply (deltas_one [0] 0 [] []); [split; [split; [constructor; reflexivity|split; [cbn; lia|reflexivity]]|reflexivity]|constructor]|]. split; [discriminate|].
      rewrite <- (be64_big _ [] Lp Fp), be64_put by lia. unfold twos64. change (2 ^ 63) with 9223372036854775808. destruct (N.ltb_spec (Z.to_N h) 9223372036854775808); lia. }
    assert (Rn : forall ps, r_nextpos ps = h -> r_current ps = 0 -> read_next ps pos' = Ok (MkPosts 0 h 0 [0])).
    { intros ps Eh Ec. destruct (read_next_cases ps pos' Fb) as [(ds & next & C & ->)|[(Mf & _)|(_ & Nc & _)]]; rewrite Eh in *.
      - destruct (chunk_fun _ _ _ _ _ _ C Ch) as [-> ->]. rewrite Ec. reflexivity.
      - destruct (misfit_chunk _ _ _ _ Mf Ch).
      - destruct (Nc _ _ Ch). }
    assert (Dd : exists p, docid2doc ix' 0 = Ok p).
    { pose proof F as [O Hn Hf]. destruct (history_inv u c k m n O Hn Hf ss dk Hi Fit wss Ww) as (fn & fs & Dk).
      destruct (open_index_ok u c k m n O Hn sorted S (all_docs ss) wss fn fs dk Dk Ww Fit) as (ix0 & E0 & _ & _ & Dm & Wf & _).
      assert (ix0 = ix) as -> by congruence. unfold docid2doc. rewrite D1, D2, Dm. change 0 with (nlen (@nil fields)).
      change (zero_fields :: fs) with ([] ++ zero_fields :: fs). rewrite dmd_lookup_render by (repeat split; reflexivity). cbn [bind zero_fields f_fid].
      rewrite (abs_found (ix_fnames ix) (map key (ix_fnames ix)) eq_refl 0 []).
      - cbn [bind]. eexists. reflexivity.
      - constructor. destruct (wf_root _ Wf) as (nd & A & _). destruct (ix_fnames ix); [discriminate A|discriminate]. }
    destruct Dd as ([[p st] en] & Dd).
    assert (G : forall q ps ds, r_nextpos ps = h -> r_current ps = 0 -> r_i ps = List.length (r_docids ps) -> docs_wf ds -> get_loop grow ix' q false pos' ps ds = Loop).
    { induction q as [|q IH]; intros ps ds H1 H2 H3 Wd; cbn [get_loop andb]; [reflexivity|].
      unfold posts_next. rewrite H3, Nat.eqb_refl, H1. destruct (Z.eqb_spec h (-1)) as [X|_]; [lia|]. rewrite (Rn ps H1 H2). cbn [bind r_docids r_i nth_error r_nextpos r_current].
      rewrite Dd. cbn [bind]. destruct (put_doc_free grow ds p st en Wd) as (ds' & -> & Wd' & _). cbn [bind]. apply IH; auto. }
    apply G; try reflexivity; exact I.
  Qed.
End Refuted.
Print Assumptions C76_open_refuted.
Print Assumptions C76_get_refuted.
Print Assumptions C76_loop_refuted.

(** Witnesses: of the hypotheses, and files for each case. *)
Lemma num_one b : b < 128 -> number32 [b] b.
Proof. intros L. split; [split; [constructor; exact L|split; [cbn; lia|]]|]; lia. Qed.
Example C76_names : names_good [2; 0; 0; 1; 97; 0] [([], 0); ([97], 0)] /\ names_bad [1; 0; 5] /\ climbs [([], 0); ([97], 0)] 1 [[97]] /\ (forall ns, ~ climbs [([], 0); ([97], 1)] 1 ns).
Proof.
  split; [|split; [|split]].
  - split; [|repeat constructor]. exists [2], [0; 0; 1; 97; 0]. split; [reflexivity|]. split; [apply num_one; reflexivity|]. split; [|reflexivity].
    apply (entries_one [0] [] [0] 0 [1; 97; 0]); try (apply num_one; reflexivity). apply (entries_one [1] [97] [0] 0 []); try (apply num_one; reflexivity). constructor.
  - exists 1, [], ([], 5). split; [|split; [constructor|discriminate]]. exists [1], [0; 5]. split; [reflexivity|]. split; [apply num_one; reflexivity|]. split; [|reflexivity].
    apply (entries_one [0] [] [5] 5 []); try (apply num_one; reflexivity). constructor.
  - apply (climbs_up _ 1 [97] 0 []); [discriminate|reflexivity|]. constructor. discriminate.
  - intros ns. induction ns as [|x ns IH]; intros C; inversion C as [|v name parent ns' Nv E C' E1]; subst. injection E as <- <-. exact (IH C').
Qed.
Definition wit_dmd : bytes := repeat 0 24.
Definition wit_es : list (bytes * N) := [([], 0)].
Definition wit_list (id : N) (next : N) : bytes := [18; id] ++ put_be64 next.
Lemma wit_chunk id next : id < 128 -> next < 2 ^ 64 -> chunk (wit_list id next) 0 [id] (twos64 next).
Proof.
  intros L Ln. destruct (put_be64_bytes next) as [Lp Fp]. exists [18], 18, [id], (put_be64 next). split; [exists [], []; rewrite app_nil_r; auto|].
  split; [apply num_one; reflexivity|]. split; [reflexivity|]. split; [unfold zlen; cbn [List.length]; lia|]. split; [exact Lp|].
  split; [apply (deltas_one [id] id [] []); [apply num_one, L|constructor]|]. split; [discriminate|]. rewrite <- (be64_big _ [] Lp Fp), be64_put by exact Ln. reflexivity.
Qed.
Lemma wit_found id : id < 2 -> found wit_dmd wit_es id ([47], 0, 0).
Proof.
  intros L. exists 0, []. split; [|split; [constructor; discriminate|reflexivity]].
  exists [0; 0; 0; 0], [0; 0; 0; 0], [0; 0; 0; 0]. split; [|auto 7]. assert (id = 0 \/ id = 1) as [-> | ->] by lia; [exists [], (repeat 0 12)|exists (repeat 0 12), []]; split; reflexivity.
Qed.
Example C76_lists : complete wit_dmd wit_es (wit_list 1 18446744073709551615) 0 [1] [([47], 0, 0)] /\
  crashes wit_dmd wit_es [1] 0 /\ endless wit_dmd wit_es (wit_list 0 0) 0.
Proof.
  split; [|split].
  - split; [|constructor; [apply wit_found; reflexivity|constructor]]. exists 1. apply (walk_chunk _ 0 0 [1] (-1) [] (-1) 1); [|constructor].
    apply (wit_chunk 1 18446744073709551615); reflexivity.
  - left. exists [], [], 0%Z, 0. split; [constructor|]. split; [constructor|]. exists [1], 1. split; [exists [], []; auto|]. split; [apply num_one; reflexivity|left; reflexivity].
  - intros q. right. exists (repeat 0 q), [], (repeat ([47], 0, 0) q), 0%Z, 0. rewrite app_nil_r. split; [|split; [|apply repeat_length]].
    + induction q as [|q IH]; [constructor|]. apply (walk_chunk _ 0 0 [0] 0 (repeat 0 q) 0 0); [|exact IH]. apply (wit_chunk 0 0); reflexivity.
    + induction q as [|q IH]; constructor; [apply wit_found; reflexivity|exact IH].
Qed.
Example C76_example : cfg_full wit_config 1 10 2 /\ cfg_values wit_config /\ docs_fit (all_docs [wit_docs]) /\ (0 < cf_numshatters wit_config)%Z /\
  forall u, words_of (word_char u) (all_docs [wit_docs]) wit_wss /\ carriers (word_hash u) 1 10 2 0 wit_wss (wit_blot1 mod (N.of_nat 2 * 65536)) <> [].
Proof.
  split; [exact wit_full|]. split.
  { constructor; try (split; [vm_compute; discriminate|reflexivity]); apply Utf8P.utf8_valid_spec; vm_compute; reflexivity. }
  split; [rewrite all_docs_one; exact wit_fit|]. split; [reflexivity|]. intros u. split; [rewrite all_docs_one; exact (wit_words u)|].
  change (wit_blot1 mod (N.of_nat 2 * 65536)) with wit_blot1. rewrite wit_carriers, N.eqb_refl. discriminate.
Qed.
