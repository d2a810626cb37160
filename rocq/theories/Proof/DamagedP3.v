(** Queries on arbitrary bytes. *)
From Verif Require Import Model.Base Model.Varint Model.Poster Model.Post Model.Address Model.Shard Model.Dmd Model.Fnames Model.Config Model.Index Model.Query Spec.Querying Spec.Damaged.
From Verif Require Import Proof.Tactics Proof.VarintP Proof.PosterP Proof.QueryP Proof.DamagedP Proof.DamagedP2.
Local Open Scope N_scope.

(** * Records *)
Lemma record_fun f id a b c a' b' c' : record f id a b c -> record f id a' b' c' -> a = a' /\ b = b' /\ c = c'.
Proof.
  intros (x1 & x2 & x3 & H & L1 & L2 & L3 & -> & -> & ->) (y1 & y2 & y3 & H' & M1 & M2 & M3 & -> & -> & ->).
  apply lies_skipn in H, H'. destruct H as (_ & t & E), H' as (_ & t' & E'). rewrite E in E'. rewrite <- !app_assoc in E'.
  apply app_same in E'; [|congruence]. destruct E' as [<- E']. apply app_same in E'; [|congruence]. destruct E' as [<- E'].
  apply app_same in E'; [|congruence]. destruct E' as [<- _]. auto.
Qed.
Lemma lookup_cases f id : Forall is_byte f ->
  (exists a b c, record f id a b c /\ dmd_lookup f id = Ok (MkFields a b c)) \/
  ((forall a b c, ~ record f id a b c) /\ exists e, dmd_lookup f id = Err e).
Proof.
  intros Fb. unfold dmd_lookup, read_full. destruct (pread f (Z.of_N id * 12) 12) as [buf|e| |] eqn:E.
  - left. destruct (pread_ok _ _ 12 _ eq_refl E) as [H L]. cbn [bind].
    unfold zlen in L. assert (length buf = 12%nat) as L' by lia. clear L.
    destruct buf as [|b0 [|b1 [|b2 [|b3 [|b4 [|b5 [|b6 [|b7 [|b8 [|b9 [|b10 [|b11 [|]]]]]]]]]]]]]; try discriminate.
    eexists _, _, _. split; [|reflexivity]. exists [b0; b1; b2; b3], [b4; b5; b6; b7], [b8; b9; b10; b11]. split; [exact H|].
    pose proof (lies_bytes _ _ _ Fb H) as F. change [b0; b1; b2; b3; b4; b5; b6; b7; b8; b9; b10; b11] with ([b0; b1; b2; b3] ++ [b4; b5; b6; b7] ++ [b8; b9; b10; b11]) in F.
    rewrite !Forall_app in F. destruct F as (F1 & F2 & F3). repeat (split; [reflexivity|]).
    split; [|split]; unfold sub; cbn [Nat.sub firstn skipn];
      [rewrite <- (app_nil_r [b0; b1; b2; b3]) at 1|rewrite <- (app_nil_r [b4; b5; b6; b7]) at 1|rewrite <- (app_nil_r [b8; b9; b10; b11]) at 1]; apply be32_big; auto.
  - right. split.
    + intros a b c (b1 & b2 & b3 & H & L1 & L2 & L3 & _). rewrite (pread_lies _ _ 12 _ H) in E; [discriminate|]. unfold zlen. rewrite !app_length, L1, L2, L3. reflexivity.
    + destruct e; [destruct (_ <? _)%Z|]; cbn [bind]; eauto.
  - exfalso. revert E. clear. unfold pread. repeat match goal with |- context [if ?b then _ else _] => destruct b end; discriminate.
  - exfalso. revert E. clear. unfold pread. repeat match goal with |- context [if ?b then _ else _] => destruct b end; discriminate.
Qed.

Section Docs.
  Variables (grow : nat -> nat) (ix : index) (es : list (bytes * N)).
  Hypothesis K : map key (ix_fnames ix) = es.
  Hypothesis Fp : Forall (fun e => snd e < nlen es) es.
  Hypothesis Fd : Forall is_byte (ix_dmd ix).
  Notation dmd := (ix_dmd ix).

  Lemma climbs_dec v : v < nlen es -> (exists ns, climbs es v ns) \/ (forall ns, ~ climbs es v ns).
  Proof.
    intros L. destruct (walk_result (ix_fnames ix) es K Fp (S (length es)) v L) as [(ns & _ & C)|E]; [left; eauto|right].
    intros ns C. rewrite (walk_climbs _ _ K v ns C) in E; [discriminate|]. pose proof (climbs_short _ _ _ C). lia.
  Qed.
  Lemma doc_found id k : found dmd es id k -> docid2doc ix id = Ok k.
  Proof.
    intros (fid & ns & R & C & E). unfold docid2doc. destruct (lookup_cases dmd id Fd) as [(a & b & c & R' & ->)|[Ne _]]; [|destruct (Ne _ _ _ R)].
    destruct (record_fun _ _ _ _ _ _ _ _ R R') as (<- & <- & <-). cbn [bind f_fid f_start f_end]. rewrite (abs_found _ _ K _ _ C). cbn [bind].
    destruct k as [[p s] e]. cbn [fst snd] in *. congruence.
  Qed.
  Lemma doc_stray id : stray dmd es id -> docid2doc ix id = Panic.
  Proof.
    intros (fid & s & e & R & L). unfold docid2doc. destruct (lookup_cases dmd id Fd) as [(a & b & c & R' & ->)|[Ne _]]; [|destruct (Ne _ _ _ R)].
    destruct (record_fun _ _ _ _ _ _ _ _ R R') as (<- & <- & <-). cbn [bind f_fid]. rewrite (abs_panics _ _ K _ L). reflexivity.
  Qed.
  Lemma doc_circular id : circular dmd es id -> docid2doc ix id = Loop.
  Proof.
    intros (fid & s & e & R & L & Nc). unfold docid2doc. destruct (lookup_cases dmd id Fd) as [(a & b & c & R' & ->)|[Ne _]]; [|destruct (Ne _ _ _ R)].
    destruct (record_fun _ _ _ _ _ _ _ _ R R') as (<- & <- & <-). cbn [bind f_fid]. rewrite (proj1 (abs_endless _ _ K Fp _ L Nc)). reflexivity.
  Qed.
  Lemma doc_cases id : (exists k, found dmd es id k /\ docid2doc ix id = Ok k) \/ stray dmd es id \/ circular dmd es id \/
    ((forall a b c, ~ record dmd id a b c) /\ exists e, docid2doc ix id = Err e).
  Proof.
    destruct (lookup_cases dmd id Fd) as [(a & b & c & R & E)|[Ne (e & E)]].
    - destruct (N.le_gt_cases (nlen es) a) as [L|L]; [right; left; exists a, b, c; auto|].
      destruct (climbs_dec a L) as [(ns & C)|Nc]; [left|right; right; left; exists a, b, c; auto].
      exists (path_up ns, b, c). assert (found dmd es id (path_up ns, b, c)) as Hf by (exists a, ns; auto). split; [exact Hf|exact (doc_found _ _ Hf)].
    - right. right. right. split; [exact Ne|]. exists e. unfold docid2doc. rewrite E. reflexivity.
  Qed.
  Lemma found_fun id k k' : found dmd es id k -> found dmd es id k' -> k = k'.
  Proof. intros H H'. apply doc_found in H, H'. congruence. Qed.

  (** * Get *)
  Variable f : bytes.
  Hypothesis Ff : Forall is_byte f.
  Notation all_found := (Forall2 (found dmd es)).
  Lemma found_dec ids : (exists keys, all_found ids keys) \/ (exists a keys x b, ids = a ++ x :: b /\ all_found a keys /\
    (stray dmd es x \/ circular dmd es x \/ forall a b c, ~ record dmd x a b c)).
  Proof.
    induction ids as [|x ids IH]; [left; exists []; constructor|].
    destruct (doc_cases x) as [(k & Hf & _)|H].
    - destruct IH as [(keys & F)|(a & keys & y & b & -> & F & H)]; [left; exists (k :: keys); constructor; auto|right].
      exists (x :: a), (k :: keys), y, b. split; [reflexivity|]. split; [constructor; auto|exact H].
    - right. exists [], [], x, ids. split; [reflexivity|]. split; [constructor|]. destruct H as [H|[H|[H _]]]; auto.
  Qed.
  (** The first documents, all found, are put into the list. *)
  Lemma get_first a b keys ps ds k pos cur : reading f ps (a ++ b) pos cur -> all_found a keys -> docs_wf ds ->
    exists ps' ds', get_loop grow ix (length a + k) false f ps ds = get_loop grow ix k false f ps' ds' /\ reading f ps' b pos cur /\ docs_wf ds' /\
      docs_keys ds' = docs_keys ds ++ keys.
  Proof.
    intros R F. revert ps ds R. induction F as [|x key0 a keys0 Fx F0 IH]; intros ps ds R W.
    - exists ps, ds. rewrite app_nil_r. auto.
    - cbn [length app Nat.add] in *. cbn [get_loop andb]. destruct (next_cases f ps Ff (proj1 R)) as [(x' & ps1 & E & _ & Q)|(_ & N0 & _)]; [|destruct (N0 _ _ _ _ R)].
      apply Q in R. destruct R as [<- R]. rewrite E. rewrite (doc_found _ _ Fx). cbn [bind]. destruct key0 as [[p s] e].
      destruct (put_doc_free grow ds p s e W) as (ds1 & E1 & W1 & L1 & Kd). rewrite E1. cbn [bind].
      destruct (IH ps1 ds1 R W1) as (ps' & ds' & Eg & R' & W' & K').
      exists ps', ds'. split; [exact Eg|]. split; [exact R'|]. split; [exact W'|]. rewrite K'. unfold docs_keys at 1. rewrite L1, map_app. cbn [map]. rewrite <- app_assoc. reflexivity.
  Qed.
  Definition nowhere (x : N) : Prop := forall a b c, ~ record dmd x a b c.
  (** The ways it can go, for a number of rounds. *)
  Lemma get_outcome fuel : forall ps ds, (r_i ps <= length (r_docids ps))%nat -> docs_wf ds ->
    (exists ids keys cur ds', reading f ps ids (-1) cur /\ all_found ids keys /\ get_loop grow ix fuel false f ps ds = Ok ds' /\ docs_keys ds' = docs_keys ds ++ keys) \/
    ((exists ids keys pos cur, reading f ps ids pos cur /\ all_found ids keys /\ misfit f pos) /\ get_loop grow ix fuel false f ps ds = Panic) \/
    ((exists a x b keys pos cur, reading f ps (a ++ x :: b) pos cur /\ all_found a keys /\ stray dmd es x) /\ get_loop grow ix fuel false f ps ds = Panic) \/
    ((exists ids keys pos cur, reading f ps ids pos cur /\ all_found ids keys /\ (pos <> -1)%Z /\ ~ misfit f pos /\ forall ds next, ~ chunk f pos ds next) /\
      exists e, get_loop grow ix fuel false f ps ds = Err e) \/
    ((exists a x b keys pos cur, reading f ps (a ++ x :: b) pos cur /\ all_found a keys /\ nowhere x) /\ exists e, get_loop grow ix fuel false f ps ds = Err e) \/
    ((exists a x b keys pos cur, reading f ps (a ++ x :: b) pos cur /\ all_found a keys /\ circular dmd es x) /\ get_loop grow ix fuel false f ps ds = Loop) \/
    ((exists a b keys pos cur, reading f ps (a ++ b) pos cur /\ all_found a keys /\ length a = fuel) /\ get_loop grow ix fuel false f ps ds = Loop).
  Proof.
    induction fuel as [|fuel IH]; intros ps ds Li W.
    { do 6 right. split; [|reflexivity]. exists [], (skipn (r_i ps) (r_docids ps)), [], (r_nextpos ps), (r_current ps). split; [|split; [constructor|reflexivity]].
      split; [exact Li|]. exists []. rewrite app_nil_r. split; [reflexivity|constructor]. }
    cbn [get_loop andb]. destruct (next_cases f ps Ff Li) as [(x & ps1 & -> & Li1 & Q)|(R0 & _ & H)].
    2:{ destruct H as [[E ->]|[[M ->]|(E & Nm & Nc & ->)]].
        - left. exists [], [], (r_current ps), ds. rewrite E in R0. rewrite app_nil_r. auto.
        - right. left. split; [|reflexivity]. exists [], [], (r_nextpos ps), (r_current ps). auto.
        - do 3 right. left. split; [|eauto]. exists [], [], (r_nextpos ps), (r_current ps). auto. }
    assert (R1 : exists b pos cur, reading f ps (x :: b) pos cur).
    { exists (skipn (r_i ps1) (r_docids ps1)), (r_nextpos ps1), (r_current ps1). apply Q. split; [reflexivity|]. split; [exact Li1|]. exists []. rewrite app_nil_r. split; [reflexivity|constructor]. }
    destruct R1 as (b1 & pos1 & cur1 & R1).
    destruct (doc_cases x) as [([[p s] e] & Fx & ->)|[Hs|[Hc|[Hn (e & ->)]]]].
    2:{ rewrite (doc_stray _ Hs). do 2 right. left. split; [|reflexivity]. exists [], x, b1, [], pos1, cur1. auto. }
    2:{ rewrite (doc_circular _ Hc). do 5 right. left. split; [|reflexivity]. exists [], x, b1, [], pos1, cur1. auto. }
    2:{ do 4 right. left. split; [|cbn [bind]; eauto]. exists [], x, b1, [], pos1, cur1. auto. }
    cbn [bind]. destruct (put_doc_free grow ds p s e W) as (ds1 & -> & W1 & L1 & _). cbn [bind].
    assert (Kd : docs_keys ds1 = docs_keys ds ++ [(p, s, e)]) by (unfold docs_keys; rewrite L1, map_app; reflexivity).
    assert (Qe : forall l pos cur, reading f ps1 l pos cur -> reading f ps (x :: l) pos cur) by (intros; apply Q; auto).
    destruct (IH ps1 ds1 Li1 W1) as [(ids & keys & cur & ds' & R & F & E & Kd')|[[(ids & keys & pos & cur & R & F & M) E]|[[(a & y & b & keys & pos & cur & R & F & S0) E]|[[(ids & keys & pos & cur & R & F & X) E]|[[(a & y & b & keys & pos & cur & R & F & S0) E]|[[(a & y & b & keys & pos & cur & R & F & S0) E]|[(a & b & keys & pos & cur & R & F & S0) E]]]]]]].
    - left. exists (x :: ids), ((p, s, e) :: keys), cur, ds'. split; [apply Qe, R|]. split; [constructor; assumption|]. split; [exact E|].
      rewrite Kd', Kd, <- app_assoc. reflexivity.
    - right. left. split; [|exact E]. exists (x :: ids), ((p, s, e) :: keys), pos, cur. split; [apply Qe, R|]. split; [constructor; assumption|exact M].
    - do 2 right. left. split; [|exact E]. exists (x :: a), y, b, ((p, s, e) :: keys), pos, cur. split; [apply Qe, R|]. split; [constructor; assumption|exact S0].
    - do 3 right. left. split; [|exact E]. exists (x :: ids), ((p, s, e) :: keys), pos, cur. split; [apply Qe, R|]. split; [constructor; assumption|exact X].
    - do 4 right. left. split; [|exact E]. exists (x :: a), y, b, ((p, s, e) :: keys), pos, cur. split; [apply Qe, R|]. split; [constructor; assumption|exact S0].
    - do 5 right. left. split; [|exact E]. exists (x :: a), y, b, ((p, s, e) :: keys), pos, cur. split; [apply Qe, R|]. split; [constructor; assumption|exact S0].
    - do 6 right. split; [|exact E]. exists (x :: a), b, ((p, s, e) :: keys), pos, cur. split; [apply Qe, R|]. split; [constructor; assumption|]. cbn [length]. lia.
  Qed.
  (** From the head [h] of a list, without a limit. *)
  Variable h : Z.
  Notation get fuel := (get_loop grow ix fuel false f (new_posts h) None).
  Notation walk0 := (walk f h 0).
  Notation complete := (complete dmd es f h).
  Notation crashes := (crashes dmd es f h).
  Notation endless := (endless dmd es f h).
  Lemma get_complete ids keys : complete ids keys -> forall fuel, (length ids < fuel)%nat -> exists ds, get fuel = Ok ds /\ docs_keys ds = keys.
  Proof.
    intros [(cur & W) F] fuel L. apply reading_new in W. rewrite <- (app_nil_r ids) in W.
    destruct (get_first ids [] keys (new_posts h) None (fuel - length ids) _ _ W F I) as (ps & ds & E & R & _ & Kd).
    replace (length ids + (fuel - length ids))%nat with fuel in E by lia. rewrite E. exists ds. split; [|exact Kd].
    destruct (fuel - length ids)%nat as [|k] eqn:Ek; [lia|]. cbn [get_loop andb]. apply reading_nil in R. destruct R as (Ei & Ep & _).
    unfold posts_next. rewrite Ei, Nat.eqb_refl, Ep. reflexivity.
  Qed.
  Lemma get_crashes : crashes -> exists n, forall fuel, (n < fuel)%nat -> get fuel = Panic.
  Proof.
    intros [(ids & keys & pos & cur & W & F & M)|(a & x & b & keys & pos & cur & W & F & S0)]; apply reading_new in W.
    - exists (length ids). intros fuel L. rewrite <- (app_nil_r ids) in W. destruct (get_first ids [] keys (new_posts h) None (fuel - length ids) _ _ W F I) as (ps & ds & E & R & _ & _).
      replace (length ids + (fuel - length ids))%nat with fuel in E by lia. rewrite E.
      destruct (fuel - length ids)%nat as [|k] eqn:Ek; [lia|]. cbn [get_loop andb]. pose proof (reading_nil _ _ _ _ R) as (Ei & Ep & _).
      destruct (next_cases f ps Ff (proj1 R)) as [(x & ps1 & Ex & _ & Q)|(_ & _ & [[Em _]|[[_ ->]|(_ & Nm & _)]])].
      + exfalso. unfold posts_next in Ex. rewrite Ei, Nat.eqb_refl in Ex. destruct (_ =? -1)%Z; [discriminate|].
        destruct (read_next_cases ps f Ff) as [(ds2 & next & C & _)|[[_ En]|(Nm & _)]]; [|rewrite En in Ex; discriminate|rewrite Ep in Nm; exact (Nm M)].
        rewrite Ep in C. exact (misfit_chunk _ _ _ _ M C).
      + exfalso. rewrite Ep in Em. subst pos. destruct M as (s & n & (aa & bb & _ & La) & _). unfold zlen in La. lia.
      + reflexivity.
      + exfalso. rewrite Ep in Nm. exact (Nm M).
    - exists (length a). intros fuel L. destruct (get_first a (x :: b) keys (new_posts h) None (fuel - length a) _ _ W F I) as (ps & ds & E & R & _ & _).
      replace (length a + (fuel - length a))%nat with fuel in E by lia. rewrite E. destruct (fuel - length a)%nat as [|k] eqn:Ek; [lia|]. cbn [get_loop andb].
      destruct (next_cases f ps Ff (proj1 R)) as [(x' & ps1 & -> & _ & Q)|(_ & N0 & _)]; [|destruct (N0 _ _ _ _ R)]. apply Q in R. destruct R as [<- R].
      rewrite (doc_stray _ S0). reflexivity.
  Qed.
  Lemma get_endless : endless -> forall fuel, get fuel = Loop.
  Proof.
    intros H fuel. destruct (H fuel) as [(a & x & b & keys & pos & cur & W & F & S0)|(a & b & keys & pos & cur & W & F & L)].
    - apply reading_new in W. destruct (Nat.le_gt_cases fuel (length a)) as [L|L].
      + rewrite <- (firstn_skipn fuel a), <- app_assoc in W.
        assert (all_found (firstn fuel a) (firstn fuel keys)) as F1.
        { clear -F. revert fuel. induction F as [|u v a keys U F IH]; intros [|n]; cbn [firstn]; constructor; auto. }
        destruct (get_first _ _ _ (new_posts h) None 0 _ _ W F1 I) as (ps & ds & E & _). rewrite firstn_length, Nat.min_l, Nat.add_0_r in E by exact L. exact E.
      + destruct (get_first a (x :: b) keys (new_posts h) None (fuel - length a) _ _ W F I) as (ps & ds & E & R & _ & _).
        replace (length a + (fuel - length a))%nat with fuel in E by lia. rewrite E. destruct (fuel - length a)%nat as [|k] eqn:Ek; [reflexivity|]. cbn [get_loop andb].
        destruct (next_cases f ps Ff (proj1 R)) as [(x' & ps1 & -> & _ & Q)|(_ & N0 & _)]; [|destruct (N0 _ _ _ _ R)]. apply Q in R. destruct R as [<- R].
        rewrite (doc_circular _ S0). reflexivity.
    - apply reading_new in W.
      destruct (get_first a b keys (new_posts h) None 0 _ _ W F I) as (ps & ds & E & _). rewrite L, Nat.add_0_r in E. exact E.
  Qed.
  (** The four ways, each in terms of what the bytes mean. *)
  Theorem get_ok fuel ds : get fuel = Ok ds -> exists ids, complete ids (docs_keys ds).
  Proof.
    intros E0. destruct (get_outcome fuel (new_posts h) None (Nat.le_0_l _) I) as [(ids & keys & cur & ds' & R & F & E & Kd)|[[_ E]|[[_ E]|[[_ (e & E)]|[[_ (e & E)]|[[_ E]|[_ E]]]]]]]; try congruence.
    assert (ds' = ds) as -> by congruence. exists ids. rewrite Kd. split; [exists cur; apply reading_new, R|exact F].
  Qed.
  Theorem get_panic fuel : get fuel = Panic -> crashes.
  Proof.
    intros E0. destruct (get_outcome fuel (new_posts h) None (Nat.le_0_l _) I) as [(ids & keys & cur & ds' & R & F & E & Kd)|[[(ids & keys & pos & cur & R & F & M) E]|[[(a & x & b & keys & pos & cur & R & F & S0) E]|[[_ (e & E)]|[[_ (e & E)]|[[_ E]|[_ E]]]]]]]; try congruence.
    - left. exists ids, keys, pos, cur. split; [apply reading_new, R|auto].
    - right. exists a, x, b, keys, pos, cur. split; [apply reading_new, R|auto].
  Qed.
  Theorem get_loops : (forall fuel, get fuel = Loop) -> endless.
  Proof.
    intros E0 n. destruct (get_outcome n (new_posts h) None (Nat.le_0_l _) I) as [(ids & keys & cur & ds' & R & F & E & Kd)|[[_ E]|[[_ E]|[[_ (e & E)]|[[_ (e & E)]|[[(a & x & b & keys & pos & cur & R & F & S0) E]|[(a & b & keys & pos & cur & R & F & S0) E]]]]]]]; rewrite ?E0 in E; try discriminate.
    - left. exists a, x, b, keys, pos, cur. split; [apply reading_new, R|auto].
    - right. exists a, b, keys, pos, cur. split; [apply reading_new, R|auto].
  Qed.
End Docs.

(** * Tables *)
Lemma read_signed r v r' : read_varint r = Ok (v, r') <-> exists s n, r = s ++ r' /\ number s n /\ v = signed n.
Proof.
  unfold read_varint. split.
  - destruct (read_uvarint r) as [[ux t]| | |] eqn:E; cbn [bind]; try discriminate. intros X. injection X as <- <-. apply read_number in E. destruct E as (s & -> & Nn).
    exists s, ux. split; [reflexivity|]. split; [exact Nn|]. apply unzigzag_signed, Nn.
  - intros (s & n & -> & Nn & ->). assert (read_uvarint (s ++ r') = Ok (n, r')) as -> by (apply read_number; eauto). cbn [bind]. rewrite unzigzag_signed by apply Nn. reflexivity.
Qed.
Lemma read_bytes_iff n : forall r b r', read_bytes n r = Ok (b, r') <-> r = b ++ r' /\ length b = n.
Proof.
  induction n as [|n IH]; intros r b r'; cbn [read_bytes].
  - split; [intros E; injection E as <- <-; auto|]. intros [-> L]. destruct b; [reflexivity|discriminate].
  - destruct r as [|c r]; [split; [discriminate|]; intros [E L]; destruct b; discriminate|].
    split.
    + destruct (read_bytes n r) as [[bs r2]| | |] eqn:E; cbn [bind]; try discriminate. intros X. injection X as <- <-. apply IH in E. destruct E as [-> <-]. auto.
    + intros [E L]. destruct b as [|c' b]; [discriminate|]. injection E as <- ->. injection L as L. rewrite (proj2 (IH _ b r') (conj eq_refl L)). reflexivity.
Qed.
Theorem table_ok n : forall r hs, slots r hs -> length hs = n -> exists t, read_table n r = Ok t /\ map fst t = hs.
Proof.
  intros r hs H. revert n. induction H as [r|s1 n1 s2 n2 b r hs N1 N2 L2 Lb H IH]; intros [|n] L; try discriminate; cbn [read_table].
  - exists []. auto.
  - injection L as L. rewrite (proj2 (read_signed _ (signed n1) (s2 ++ b ++ r))) by eauto. cbn [bind].
    rewrite (proj2 (read_signed _ (signed n2) (b ++ r))) by eauto. cbn [bind]. change (2 ^ 32)%Z with 4294967296%Z in L2.
    destruct (Z.ltb_spec (signed n2) 0); [lia|]. destruct (Z.leb_spec 4294967296 (signed n2)); [lia|]. cbn [orb].
    rewrite (proj2 (read_bytes_iff 4 _ b r)) by auto. cbn [bind]. destruct (IH n L) as (t & -> & Et). cbn [bind]. eexists. split; [reflexivity|]. cbn [map fst]. congruence.
Qed.
Theorem table_slots n : forall r t, read_table n r = Ok t -> slots r (map fst t) /\ length t = n.
Proof.
  induction n as [|n IH]; intros r t; cbn [read_table].
  - intros E. injection E as <-. split; [constructor|reflexivity].
  - destruct (read_varint r) as [[hd r1]| | |] eqn:E1; cbn [bind]; try discriminate. destruct (read_varint r1) as [[ct r2]| | |] eqn:E2; cbn [bind]; try discriminate.
    destruct ((ct <? 0)%Z || (4294967296 <=? ct)%Z) eqn:Ec; [discriminate|]. destruct (read_bytes 4 r2) as [[b r3]| | |] eqn:E3; cbn [bind]; try discriminate.
    destruct (read_table n r3) as [t'| | |] eqn:E4; cbn [bind]; try discriminate. intros X. injection X as <-.
    apply read_signed in E1. destruct E1 as (s1 & n1 & -> & N1 & ->). apply read_signed in E2. destruct E2 as (s2 & n2 & -> & N2 & ->).
    apply read_bytes_iff in E3. destruct E3 as [-> Lb]. destruct (IH _ _ E4) as [H L]. apply orb_false_iff in Ec. destruct Ec as [C1 C2]. apply Z.ltb_ge in C1. apply Z.leb_gt in C2.
    cbn [map fst length]. split; [|lia]. apply slots_one with (n2 := n2); auto.
Qed.

(** * Opening *)
From Verif Require Import Model.Utf8 Model.Blotter Model.Run Model.Session Model.Json Model.Crash.
Lemma shard_open_slots sorted iix pos : (exists hs, slots iix hs /\ length hs = num_slots) <-> exists s, shard_open sorted iix pos = Ok s.
Proof.
  unfold shard_open. generalize num_slots as n. intros n. split.
  - intros (hs & H & L). destruct (table_ok n _ _ H L) as (t & -> & _). cbn [bind]. eexists. reflexivity.
  - intros (s & E). destruct (read_table n iix) as [t| | |] eqn:Et; try discriminate. apply table_slots in Et. exists (map fst t). rewrite map_length. exact Et.
Qed.
Lemma shard_open_is sorted iix pos s : shard_open sorted iix pos = Ok s -> slots iix (si_heads s) /\ length (si_heads s) = num_slots /\ si_file s = pos.
Proof.
  unfold shard_open. generalize num_slots as n. intros n E. destruct (read_table n iix) as [t| | |] eqn:Et; try discriminate. injection E as <-.
  apply table_slots in Et. cbn [si_heads si_file]. rewrite map_length. destruct Et. auto.
Qed.
Lemma shard_open_err sorted iix pos : (exists s, shard_open sorted iix pos = Ok s) \/ exists e, shard_open sorted iix pos = Err e.
Proof.
  unfold shard_open. generalize num_slots as n. intros n. rewrite CutP.read_table_r_spec.
  destruct (CutP.table_err n iix) as [(v & r' & -> & _)|(e & ->)]; cbn [bind]; [left|right]; eexists; reflexivity.
Qed.
Section ForFiles.
  Context {A : Type} (g : bytes -> bytes -> result A).
  Lemma for_files_nth n : forall fs xs, for_files g n fs = Ok xs -> length xs = n /\
    forall i, (i < n)%nat -> exists iix pos x, nth_error fs i = Some (Some iix, Some pos) /\ nth_error xs i = Some x /\ g iix pos = Ok x.
  Proof.
    induction n as [|n IH]; intros fs xs E; cbn [for_files] in E; [injection E as <-; split; [reflexivity|]; intros; lia|].
    destruct fs as [|[[iix|] [pos|]] fs]; try discriminate. destruct (g iix pos) as [x| | |] eqn:Eg; try discriminate. cbn [bind] in E.
    destruct (for_files g n fs) as [xs'| | |] eqn:Ef; try discriminate. injection E as <-. destruct (IH _ _ Ef) as [L H]. split; [cbn [length]; lia|].
    intros [|i] Li; [exists iix, pos, x; auto|]. cbn [nth_error]. apply H. lia.
  Qed.
  Lemma for_files_all n : forall fs, (forall i, (i < n)%nat -> exists iix pos x, nth_error fs i = Some (Some iix, Some pos) /\ g iix pos = Ok x) ->
    exists xs, for_files g n fs = Ok xs.
  Proof.
    induction n as [|n IH]; intros fs H; cbn [for_files]; [eauto|]. destruct (H 0%nat ltac:(lia)) as (iix & pos & x & E & Eg).
    destruct fs as [|p fs]; [discriminate|]. cbn [nth_error] in E. injection E as ->. rewrite Eg. cbn [bind].
    destruct (IH fs) as (xs & ->); [|eexists; reflexivity]. intros i Li. destruct (H (S i) ltac:(lia)) as (iix' & pos' & x' & E & Eg'). cbn [nth_error] in E. eauto.
  Qed.
  Lemma for_files_err (Q : forall iix pos, (exists x, g iix pos = Ok x) \/ exists e, g iix pos = Err e) n : forall fs, (exists xs, for_files g n fs = Ok xs) \/ exists e, for_files g n fs = Err e.
  Proof.
    induction n as [|n IH]; intros fs; cbn [for_files]; [eauto|]. destruct fs as [|[[iix|] [pos|]] fs]; try (right; eexists; reflexivity).
    destruct (Q iix pos) as [(x & ->)|(e & ->)]; cbn [bind]; [|right; eexists; reflexivity].
    destruct (IH fs) as [(xs & ->)|(e & ->)]; cbn [bind]; [left|right]; eexists; reflexivity.
  Qed.
End ForFiles.
