(** Parsing of the options of a verb. *)
From Coq Require Import String.
From Verif Require Import Model.Base Model.Args Model.Flags Proof.Tactics Proof.ArgsP Spec.Str Spec.Cmdline.
Local Open Scope N_scope.
Local Open Scope list_scope.

Lemma lookup_in {A} n (fs : list (bytes * A)) k : lookup n fs = Some k -> In (n, k) fs.
Proof.
  induction fs as [|[n' k'] fs IH]; cbn [lookup]; [discriminate|].
  destruct (beq n' n) eqn:E; intros H.
  - apply beq_iff in E. subst n'. injection H as ->. now left.
  - right. now apply IH.
Qed.

(** cut_value takes a name and what is behind the first =. *)
Lemma cut_eq_plain n : ~ In 61 n -> cut_eq n = (n, None).
Proof.
  induction n as [|c n IH]; intros H; [reflexivity|]. cbn [cut_eq].
  destruct (N.eqb_spec c 61) as [->|_]; [exfalso; apply H; now left|].
  rewrite IH; [reflexivity|]. intros I. apply H. now right.
Qed.
Lemma cut_eq_app n v : ~ In 61 n -> cut_eq (n ++ 61 :: v) = (n, Some v).
Proof.
  induction n as [|c n IH]; intros H; [reflexivity|]. cbn [cut_eq app].
  destruct (N.eqb_spec c 61) as [->|_]; [exfalso; apply H; now left|].
  rewrite IH; [reflexivity|]. intros I. apply H. now right.
Qed.
Lemma cut_eq_inv s : forall n v, cut_eq s = (n, v) ->
  ~ In 61 n /\ s = match v with Some v => n ++ 61 :: v | None => n end.
Proof.
  induction s as [|c s IH]; intros n v H; cbn [cut_eq] in H.
  - injection H as <- <-. auto.
  - destruct (N.eqb_spec c 61) as [->|Hc].
    + injection H as <- <-. split; [easy|reflexivity].
    + destruct (cut_eq s) as [n1 v1]. destruct (IH n1 v1 eq_refl) as [F ->]. injection H as <- <-. split.
      * intros [I|I]; [congruence|contradiction].
      * now destruct v1.
Qed.

Definition flag_name (n : bytes) : Prop := n <> [] /\ ~ In 61 n /\ hd 0 n <> 45.
Definition names_ok (fs : flagset) : Prop := Forall (fun p => flag_name (fst p)) fs.
Lemma names_ok_lookup fs n k : names_ok fs -> lookup n fs = Some k -> flag_name n.
Proof. intros W L. apply lookup_in in L. exact (proj1 (Forall_forall _ _) W _ L). Qed.
Lemma cut_value_plain n : flag_name n -> cut_value n = (n, None).
Proof.
  intros (H & F & _). destruct n as [|c n]; [contradiction|]. cbn [cut_value].
  rewrite cut_eq_plain; [reflexivity|]. intros I. apply F. now right.
Qed.
Lemma cut_value_app n v : flag_name n -> cut_value (n ++ 61 :: v) = (n, Some v).
Proof.
  intros (H & F & _). destruct n as [|c n]; [contradiction|]. cbn [cut_value app].
  rewrite cut_eq_app; [reflexivity|]. intros I. apply F. now right.
Qed.
Lemma cut_value_inv s n v : cut_value s = (n, v) -> s = match v with Some v => n ++ 61 :: v | None => n end.
Proof.
  destruct s as [|c s]; cbn [cut_value]; intros H.
  - injection H as <- <-. reflexivity.
  - destruct (cut_eq s) as [n1 v1] eqn:E. apply cut_eq_inv in E as [_ ->]. injection H as <- <-. now destruct v1.
Qed.

(** What one word "-name", "--name", with "=value" or not, makes of the parser. *)
Definition after_name (fuel : nat) (fs : flagset) (n : bytes) (v : option bytes) (rest : list bytes) : fparsed :=
  match lookup n fs with
  | None => if beq n (bs "help") || beq n (bs "h") then FExit 0 else FExit 2
  | Some KBool =>
      match set_value KBool (match v with Some v => v | None => bs "true" end) with
      | Some x => then_set n x (parse_verb fuel fs rest)
      | None => FExit 2
      end
  | Some k =>
      match (match v with Some v => Some (v, rest) | None => match rest with v :: r => Some (v, r) | [] => None end end) with
      | None => FExit 2
      | Some (v, rest) =>
          match set_value k v with
          | Some x => then_set n x (parse_verb fuel fs rest)
          | None => FExit 2
          end
      end
  end.
Definition is_dash (dash : bytes) : Prop := dash = bs "-" \/ dash = bs "--".
(** The word that [parse_verb] sees: the options end, a malformed option, or a name. *)
Inductive word_case : bytes -> Prop :=
| wc_pos w : positional w -> word_case w
| wc_dd : word_case (bs "--")
| wc_bad dash s : is_dash dash -> hd 0 s = 45 \/ hd 0 s = 61 -> dash <> bs "-" \/ hd 0 s = 61 -> s <> [] -> word_case (dash ++ s)
| wc_opt dash s : is_dash dash -> s <> [] -> hd 0 s <> 45 -> hd 0 s <> 61 -> word_case (dash ++ s).
Lemma word_cases w : word_case w.
Proof.
  destruct w as [|c w]; [apply wc_pos; right; discriminate|].
  destruct (N.eq_dec c 45) as [->|Hc]; [|apply wc_pos; right; intros r [= E _]; contradiction].
  destruct w as [|c1 w]; [apply wc_pos; now left|].
  destruct (N.eq_dec c1 45) as [->|H1].
  - destruct w as [|c2 w]; [apply wc_dd|].
    destruct (N.eq_dec c2 45) as [->|H2].
    + apply (wc_bad (bs "--") (45 :: w)); [now right|now left|left; discriminate|discriminate].
    + destruct (N.eq_dec c2 61) as [->|H3].
      * apply (wc_bad (bs "--") (61 :: w)); [now right|now right|left; discriminate|discriminate].
      * apply (wc_opt (bs "--") (c2 :: w)); [now right|discriminate|exact H2|exact H3].
  - destruct (N.eq_dec c1 61) as [->|H3].
    + apply (wc_bad (bs "-") (61 :: w)); [now left|now right|now right|discriminate].
    + apply (wc_opt (bs "-") (c1 :: w)); [now left|discriminate|exact H1|exact H3].
Qed.

Lemma parse_nil fuel fs : parse_verb fuel fs [] = FDone [] [].
Proof. now destruct fuel. Qed.
Lemma parse_pos fuel fs w rest : positional w -> parse_verb (S fuel) fs (w :: rest) = FDone [] (w :: rest).
Proof.
  intros [->|H]; [reflexivity|]. destruct w as [|c w]; [reflexivity|].
  destruct (N.eq_dec c 45) as [->|Hc]; [exfalso; now apply (H w)|].
  cbn [parse_verb]. destruct c as [|p]; [reflexivity|].
  do 6 (destruct p as [p|p|]; try reflexivity). exfalso. now apply Hc.
Qed.
Lemma parse_dd fuel fs rest : parse_verb (S fuel) fs (bs "--" :: rest) = FDone [] rest.
Proof. reflexivity. Qed.
Lemma parse_bad fuel fs dash s rest : is_dash dash -> hd 0 s = 45 \/ hd 0 s = 61 -> dash <> bs "-" \/ hd 0 s = 61 -> s <> [] ->
  parse_verb (S fuel) fs ((dash ++ s) :: rest) = FExit 2.
Proof.
  intros D H X N0. destruct s as [|c s]; [contradiction|]. cbn [hd] in H, X.
  destruct D as [->| ->]; cbn [bs app].
  - destruct X as [X|X]; [contradiction|]. subst c. reflexivity.
  - destruct H as [->| ->]; reflexivity.
Qed.
Lemma parse_opt fuel fs dash s rest : is_dash dash -> s <> [] -> hd 0 s <> 45 -> hd 0 s <> 61 ->
  parse_verb (S fuel) fs ((dash ++ s) :: rest) = let '(n, v) := cut_value s in after_name fuel fs n v rest.
Proof.
  intros D N0 H1 H2. destruct s as [|c s]; [contradiction|]. cbn [hd] in H1, H2.
  apply N.eqb_neq in H1, H2.
  destruct D as [->| ->].
  - change (bs "-" ++ c :: s) with (45 :: c :: s). cbn [parse_verb]. rewrite H1. cbn [andb]. rewrite H1, H2. cbn [orb].
    destruct (cut_value (c :: s)) as [n v]. unfold after_name. reflexivity.
  - change (bs "--" ++ c :: s) with (45 :: 45 :: c :: s). cbn [parse_verb].
    rewrite N.eqb_refl. cbn [andb]. rewrite H1, H2. cbn [orb].
    destruct (cut_value (c :: s)) as [n v]. unfold after_name. reflexivity.
Qed.

Definition kind_of (k : kind) : fkind := match k with KBool => NoValue | KInt => Integer | KFloat => Real | KString => Text end.
Definition flags_of (fs : flagset) (n : bytes) : option fkind := option_map kind_of (lookup n fs).
(** An option as written and the value it sets. *)
Definition assigns (fs : flagset) (o : bytes * bytes) (x : bytes * fvalue) : Prop :=
  fst x = fst o /\ exists k, lookup (fst o) fs = Some k /\ set_value k (snd o) = Some (snd x).

Lemma parse_written fuel fs n v ws rest : names_ok fs -> written (flags_of fs) n v ws ->
  exists k, lookup n fs = Some k /\
    parse_verb (S fuel) fs (ws ++ rest) =
    match set_value k v with Some x => then_set n x (parse_verb fuel fs rest) | None => FExit 2 end.
Proof.
  intros W H.
  assert (NM : forall k, lookup n fs = Some k -> n <> [] /\ hd 0 n <> 45 /\ hd 0 n <> 61).
  { intros k L. apply (names_ok_lookup _ _ _ W) in L as (N0 & F & H45). repeat split; auto.
    destruct n as [|c n]; [contradiction|]. cbn [hd]. intros ->. apply F. now left. }
  destruct H as [n v k0 dash F D|n v k0 dash F K D|n dash F D]; unfold flags_of in F;
    destruct (lookup n fs) as [k|] eqn:L; try discriminate; exists k; (split; [reflexivity|]);
    destruct (NM k eq_refl) as (N0 & H45 & H61); pose proof (names_ok_lookup _ _ _ W L) as FN.
  - cbn [app]. rewrite parse_opt; [|exact D| | |]; try (now destruct n).
    change (bs "=") with [61]. cbn [app]. rewrite (cut_value_app n v FN). unfold after_name. rewrite L. now destruct k.
  - cbn [app]. rewrite parse_opt by (auto; now destruct n). rewrite (cut_value_plain n FN). unfold after_name. rewrite L.
    injection F as <-. destruct k; try reflexivity. now contradiction K.
  - cbn [app]. rewrite parse_opt by (auto; now destruct n). rewrite (cut_value_plain n FN). unfold after_name. rewrite L.
    injection F as F. now destruct k.
Qed.

Lemma then_set_done n x p sets rest : then_set n x p = FDone sets rest ->
  exists sets', p = FDone sets' rest /\ sets = (n, x) :: sets'.
Proof. destruct p as [s r|]; cbn [then_set]; [|discriminate]. intros H. injection H as <- <-. now exists s. Qed.
Lemma then_set_exit n x p st : then_set n x p = FExit st -> p = FExit st.
Proof. destruct p as [s r|]; cbn [then_set]; congruence. Qed.

(** What is read off a name: an option as written, or an end with 0 for help. *)
Lemma after_name_cases fuel fs dash n v rest : names_ok fs -> is_dash dash ->
  let w := dash ++ match v with Some v => n ++ 61 :: v | None => n end in
  (exists k v' ws rest', lookup n fs = Some k /\ w :: rest = ws ++ rest' /\ written (flags_of fs) n v' ws /\
     (List.length rest' <= List.length rest)%nat /\
     after_name fuel fs n v rest = match set_value k v' with Some x => then_set n x (parse_verb fuel fs rest') | None => FExit 2 end) \/
  after_name fuel fs n v rest = FExit 2 /\ (~ exists v' ws rest', w :: rest = ws ++ rest' /\ written (flags_of fs) n v' ws) /\ (lookup n fs = None -> n <> bs "h" /\ n <> bs "help") \/
  after_name fuel fs n v rest = FExit 0 /\ lookup n fs = None /\ (n = bs "h" \/ n = bs "help").
Proof.
  intros W D w. destruct (lookup n fs) as [k|] eqn:L.
  - assert (F : flags_of fs n = Some (kind_of k)) by (unfold flags_of; now rewrite L).
    destruct v as [v|].
    + left. exists k, v, [w], rest. repeat split; auto.
      * apply (w_equals _ n v _ dash F D).
      * unfold after_name. rewrite L. now destruct k.
    + destruct (match k with KBool => true | _ => false end) eqn:B.
      * left. exists k, (bs "true"), [w], rest. destruct k; try discriminate. repeat split; auto.
        -- apply (w_alone _ n dash F D).
        -- unfold after_name. now rewrite L.
      * assert (K : kind_of k <> NoValue) by (destruct k; [discriminate B|discriminate..]).
        destruct rest as [|v rest].
        -- right. left. split; [unfold after_name; rewrite L; destruct k; [discriminate B|reflexivity..]|].
           split; [|intros X; discriminate]. intros (v' & ws & rest' & E & Wr).
           destruct Wr as [n v0 k0 dash0 F0 D0|n v0 k0 dash0 F0 K0 D0|n dash0 F0 D0].
           ++ cbn [app] in E. injection E as E _. subst w. pose proof (names_ok_lookup _ _ _ W L) as (N0 & NE & H45).
              assert (X : In 61 (dash ++ n)). { rewrite E. apply in_or_app. right. apply in_or_app. right. now left. }
              apply in_app_or in X as [X|X]; [|contradiction].
              destruct D as [->| ->]; cbn in X; intuition discriminate.
           ++ cbn [app] in E. discriminate.
           ++ congruence.
        -- left. exists k, v, [w; v], rest. repeat split; auto.
           ++ apply (w_next _ n v _ dash F K D).
           ++ cbn [List.length]. lia.
           ++ unfold after_name. rewrite L. destruct k; [discriminate B|reflexivity..].
  - destruct (beq n (bs "help") || beq n (bs "h")) eqn:B.
    + right. right. split; [unfold after_name; now rewrite L, B|]. split; [reflexivity|].
      apply orb_true_iff in B as [B|B]; apply beq_iff in B; auto.
    + right. left. split; [unfold after_name; now rewrite L, B|]. split.
      * intros (v' & ws & rest' & E & Wr).
        assert (X : flags_of fs n <> None) by (destruct Wr; congruence).
        apply X. unfold flags_of. now rewrite L.
      * intros _. apply orb_false_iff in B as [B1 B2]. split; intros ->; [now rewrite (proj2 (beq_iff _ _) eq_refl) in B2|].
        now rewrite (proj2 (beq_iff _ _) eq_refl) in B1.
Qed.

Lemma reads_cons fs n v ws args os rest : written (flags_of fs) n v ws -> reads_as (flags_of fs) args os rest ->
  reads_as (flags_of fs) (ws ++ args) ((n, v) :: os) rest.
Proof.
  intros Wr (wss & tail & -> & WA & T). exists (ws ++ wss), tail. split; [now rewrite app_assoc|]. split; [|exact T].
  now apply wa_cons.
Qed.

Lemma parse_sound fs (W : names_ok fs) fuel : forall args sets rest, (List.length args < fuel)%nat ->
  parse_verb fuel fs args = FDone sets rest ->
  exists os, reads_as (flags_of fs) args os rest /\ Forall2 (assigns fs) os sets.
Proof.
  induction fuel as [|fuel IH]; intros args sets rest Len P; [lia|].
  destruct args as [|w args].
  - rewrite parse_nil in P. injection P as <- <-. exists []. split; [|constructor].
    exists [], []. repeat split; [constructor|]. right. auto.
  - cbn [List.length] in Len. destruct (word_cases w) as [w P0| |dash s D H1 H2 N0|dash s D N0 H1 H2].
    + rewrite parse_pos in P by exact P0. injection P as <- <-. exists []. split; [|constructor].
      exists [], (w :: args). repeat split; [constructor|]. right. split; [reflexivity|]. right. eauto.
    + rewrite parse_dd in P. injection P as <- <-. exists []. split; [|constructor].
      exists [], (bs "--" :: args). repeat split; [constructor|]. now left.
    + rewrite parse_bad in P by assumption. discriminate.
    + rewrite parse_opt in P by assumption. destruct (cut_value s) as [n v] eqn:C. apply cut_value_inv in C. subst s.
      destruct (after_name_cases fuel fs dash n v args W D) as [(k & v' & ws & rest' & L & E & Wr & Le & A)|[(A & _)|(A & _)]];
        rewrite A in P; try discriminate.
      destruct (set_value k v') as [x|] eqn:S; [|discriminate].
      apply then_set_done in P as (sets' & P & ->). apply IH in P as (os & R & F); [|lia].
      exists ((n, v') :: os). split.
      * rewrite E. now apply reads_cons.
      * constructor; [|exact F]. split; [reflexivity|]. exists k. auto.
Qed.

Lemma parse_complete fs (W : names_ok fs) os : forall fuel args sets rest, (List.length args < fuel)%nat ->
  reads_as (flags_of fs) args os rest -> Forall2 (assigns fs) os sets -> parse_verb fuel fs args = FDone sets rest.
Proof.
  induction os as [|[n v] os IH]; intros fuel args sets rest Len (wss & tail & -> & WA & T) F;
    remember (flags_of fs) as G eqn:EG.
  - inversion WA; subst. inversion F; subst. destruct fuel as [|fuel]; [lia|]. cbn [app].
    destruct T as [->|[-> [->|(w & r & -> & P)]]]; [apply parse_dd|apply parse_nil|now apply parse_pos].
  - inversion WA as [|n0 v0 ws os0 wss0 Wr WA0]; subst. inversion F as [|o x os1 sets1 A F1]; subst.
    destruct fuel as [|fuel]; [lia|].
    destruct (parse_written fuel fs n v ws (wss0 ++ tail) W Wr) as (k & L & E).
    rewrite <- app_assoc, E. destruct A as (A1 & k' & L' & S'). cbn [fst snd] in A1, L', S'.
    rewrite L in L'. injection L' as <-. rewrite S'.
    rewrite (IH fuel (wss0 ++ tail) sets1 rest).
    + destruct x as [xn xv]. cbn [fst snd] in *. now rewrite A1.
    + rewrite <- app_assoc, app_length in Len. assert (1 <= List.length ws)%nat by (destruct Wr; cbn; lia). lia.
    + exists wss0, tail. auto.
    + exact F1.
Qed.

Theorem parse_reads fs args sets rest : names_ok fs ->
  parse_args fs args = FDone sets rest <->
  exists os, reads_as (flags_of fs) args os rest /\ Forall2 (assigns fs) os sets.
Proof.
  intros W. split; [apply parse_sound; auto; lia|]. intros (os & R & F). now apply (parse_complete fs W os); [lia|..].
Qed.

(** Status 0 is for help. *)
Lemma help_sound fs (W : names_ok fs) fuel : forall args, (List.length args < fuel)%nat ->
  parse_verb fuel fs args = FExit 0 ->
  exists os sets ws w rest, args = ws ++ w :: rest /\ written_all (flags_of fs) os ws /\ Forall2 (assigns fs) os sets /\ asks_help (flags_of fs) w.
Proof.
  induction fuel as [|fuel IH]; intros args Len P; [lia|].
  destruct args as [|w args]; [rewrite parse_nil in P; discriminate|].
  cbn [List.length] in Len. destruct (word_cases w) as [w P0| |dash s D H1 H2 N0|dash s D N0 H1 H2].
  - rewrite parse_pos in P by exact P0. discriminate.
  - rewrite parse_dd in P. discriminate.
  - rewrite parse_bad in P by assumption. discriminate.
  - rewrite parse_opt in P by assumption. destruct (cut_value s) as [n v] eqn:C. apply cut_value_inv in C. subst s.
    destruct (after_name_cases fuel fs dash n v args W D) as [(k & v' & ws & rest' & L & E & Wr & Le & A)|[(A & _)|(A & L & N)]];
      rewrite A in P; try discriminate.
    + destruct (set_value k v') as [x|] eqn:S; [|discriminate].
      apply then_set_exit in P. apply IH in P as (os & sets & ws' & w' & r & -> & WA & F & H); [|lia].
      exists ((n, v') :: os), ((n, x) :: sets), (ws ++ ws'), w', r. rewrite E, app_assoc. repeat split; auto.
      * now apply wa_cons.
      * constructor; [|exact F]. split; [reflexivity|]. exists k. auto.
    + exists [], [], [], (dash ++ match v with Some v => n ++ 61 :: v | None => n end), args.
      split; [reflexivity|]. split; [constructor|]. split; [constructor|].
      exists dash, n. split; [exact D|]. split; [exact N|]. split.
      * unfold flags_of. now rewrite L.
      * destruct v as [v|]; [right; now exists v|now left].
Qed.
Lemma help_complete fs (W : names_ok fs) os : forall fuel ws sets w rest, (List.length (ws ++ w :: rest) < fuel)%nat ->
  written_all (flags_of fs) os ws -> Forall2 (assigns fs) os sets -> asks_help (flags_of fs) w ->
  parse_verb fuel fs (ws ++ w :: rest) = FExit 0.
Proof.
  induction os as [|[n v] os IH]; intros fuel wss sets w rest Len WA F H; remember (flags_of fs) as G eqn:EG.
  - inversion WA; subst. destruct fuel as [|fuel]; [lia|]. cbn [app].
    destruct H as (dash & n & D & N & L & E).
    assert (FN : flag_name n) by (destruct N as [->| ->]; repeat split; cbn; intuition discriminate).
    assert (L' : lookup n fs = None) by (unfold flags_of in L; destruct (lookup n fs); [discriminate|reflexivity]).
    assert (B : beq n (bs "help") || beq n (bs "h") = true) by (destruct N as [->| ->]; reflexivity).
    destruct E as [->|(v & ->)].
    + rewrite parse_opt; [|exact D| | |]; try (destruct N as [->| ->]; discriminate).
      rewrite cut_value_plain by exact FN. unfold after_name. now rewrite L', B.
    + rewrite parse_opt; [|exact D| | |]; try (destruct N as [->| ->]; discriminate).
      change (bs "=" ++ v) with (61 :: v). rewrite cut_value_app by exact FN. unfold after_name. now rewrite L', B.
  - inversion WA as [|n0 v0 ws os0 wss0 Wr WA0]; subst. inversion F as [|o x os1 sets1 A F1]; subst.
    destruct fuel as [|fuel]; [lia|].
    destruct (parse_written fuel fs n v ws (wss0 ++ w :: rest) W Wr) as (k & L & E).
    rewrite <- app_assoc, E. destruct A as (A1 & k' & L' & S'). cbn [fst snd] in A1, L', S'.
    rewrite L in L'. injection L' as <-. rewrite S'.
    rewrite (IH fuel wss0 sets1 w rest); auto.
    rewrite <- app_assoc, app_length in Len. assert (1 <= List.length ws)%nat by (destruct Wr; cbn; lia). lia.
Qed.
Theorem parse_help fs args : names_ok fs ->
  parse_args fs args = FExit 0 <->
  exists os sets ws w rest, args = ws ++ w :: rest /\ written_all (flags_of fs) os ws /\ Forall2 (assigns fs) os sets /\ asks_help (flags_of fs) w.
Proof.
  intros W. split; [apply help_sound; auto; lia|]. intros (os & sets & ws & w & rest & -> & WA & F & H).
  now apply (help_complete fs W os) with sets; [lia|..].
Qed.
Lemma exit_status fs fuel : forall args st, parse_verb fuel fs args = FExit st -> st = 0 \/ st = 2.
Proof.
  induction fuel as [|fuel IH]; intros args st P; [discriminate|]. destruct args as [|w args]; [rewrite parse_nil in P; discriminate|].
  destruct (word_cases w) as [w P0| |dash s D H1 H2 N0|dash s D N0 H1 H2].
  - rewrite parse_pos in P by exact P0. discriminate.
  - rewrite parse_dd in P. discriminate.
  - rewrite parse_bad in P by assumption. injection P as <-. auto.
  - rewrite parse_opt in P by assumption. destruct (cut_value s) as [n v]. unfold after_name in P.
    assert (X : forall n x p, then_set n x p = FExit st -> p = FExit st) by (intros n0 x0 p0; apply then_set_exit).
    repeat match type of P with
           | context [match ?x with _ => _ end] => destruct x; try discriminate; try (injection P as <-; auto)
           | then_set _ _ _ = _ => apply then_set_exit in P; exact (IH _ _ P)
           end.
Qed.

(** The value of an option is the one given last. *)
Lemma last_set_given fs n os sets : Forall2 (assigns fs) os sets -> forall d,
  match given n os with
  | Some v => exists k, lookup n fs = Some k /\ set_value k v = Some (last_set n sets d)
  | None => last_set n sets d = d
  end.
Proof.
  induction 1 as [|[n0 v0] [n1 x] os sets (A & k & L & S) F IH]; intros d; [reflexivity|].
  cbn [given last_set fst snd] in *. subst n1. specialize (IH (if beq n0 n then x else d)).
  destruct (given n os) as [v|]; [exact IH|]. rewrite IH. destruct (list_eq_dec N.eq_dec n0 n) as [->|Ne].
  - rewrite (proj2 (beq_iff _ _) eq_refl). eauto.
  - destruct (beq n0 n) eqn:B; [apply beq_iff in B; contradiction|reflexivity].
Qed.
