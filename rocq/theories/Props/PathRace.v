(** C118: paths added by several goroutines at a time. [start adds] are the calls, [turns n K] lets
    each of n goroutines make K steps, one goroutine after the other. *)
From Coq Require Import String Lia.
From Verif Require Import Model.Base Model.Path Model.Fnames Model.PathRace Spec.Paths Spec.Str.
From Verif Require Import Proof.Tactics Proof.PathP Proof.FnamesP Proof.PathRaceP.
Local Open Scope list_scope. Local Open Scope N_scope.

(** Calls that do not overlap: every goroutine gets the number the sequential model gives, and the
    number has the path that was added. *)
Theorem C118_in_turn_partial grow adds K : ops_ok (as_ops adds) -> room (as_ops adds) < 4294967295 ->
  (forall a, In a adds -> (8 * List.length (spec_abs (fst a) (snd a)) + 9 <= K)%nat) ->
  exists s ids, path_race grow (turns (List.length adds) K) new_pset (start adds) = (s, map QDone ids) /\
    fn_run new_fnames (as_ops adds) = Ok (paths_of s, ids) /\
    Forall2 (fun id a => fn_abs (paths_of s) id = Ok (show_abs (spec_abs (fst a) (snd a)))) ids adds.
Proof.
  intros R Hr HK. destruct (set_up grow adds K R Hr HK) as (s & ids & E & O & W & Ef & F). exists s, ids. split; [exact E|]. split; [exact Ef|].
  eapply Forall2_impl; [|exact F]. cbn beta. intros id a P. rewrite (fn_abs_path _ _ _ W P), parts_show. reflexivity.
Qed.
Print Assumptions C118_in_turn_partial.

(** Whatever calls are made at a time afterwards, and however far they have got, the numbers given
    before keep their paths. *)
Theorem C118_earlier_partial grow adds K : ops_ok (as_ops adds) -> room (as_ops adds) < 4294967295 ->
  (forall a, In a adds -> (8 * List.length (spec_abs (fst a) (snd a)) + 9 <= K)%nat) ->
  exists s ids, path_race grow (turns (List.length adds) K) new_pset (start adds) = (s, map QDone ids) /\
    forall later sched, Forall2 (fun id a => fn_abs (paths_of (fst (path_race grow sched s (start later)))) id = Ok (show_abs (spec_abs (fst a) (snd a)))) ids adds.
Proof.
  intros R Hr HK. destruct (set_up grow adds K R Hr HK) as (s & ids & E & O & W & Ef & F). exists s, ids. split; [exact E|]. intros later sched.
  eapply Forall2_impl; [|exact F]. cbn beta. intros id a P. rewrite (earlier_paths grow sched s (start later) O W).
  - rewrite (fn_abs_path _ _ _ W P), parts_show. reflexivity.
  - apply Forall_forall. intros c Hc. unfold start in Hc. apply in_map_iff in Hc. destruct Hc as ([c0 p0] & <- & _). exists c0, p0. reflexivity.
  - exact (is_path_lt _ _ _ W P).
Qed.
Print Assumptions C118_earlier_partial.

(** Calls at a time for paths that are there already, in any spelling, do not get in each other's
    way: the path set stays as it is, no call panics, a call that has ended has given the number the
    path had before, and it has ended after three steps and two more for each name of the path. *)
Theorem C118_known_partial grow adds K : ops_ok (as_ops adds) -> room (as_ops adds) < 4294967295 ->
  (forall a, In a adds -> (8 * List.length (spec_abs (fst a) (snd a)) + 9 <= K)%nat) ->
  exists s ids, path_race grow (turns (List.length adds) K) new_pset (start adds) = (s, map QDone ids) /\
    forall later sched, (forall a, In a later -> rooted (fst a) /\ exists b, In b adds /\ spec_abs (fst a) (snd a) = spec_abs (fst b) (snd b)) ->
      exists cs, path_race grow sched s (start later) = (s, cs) /\
        forall i a j b id, nth_error later i = Some a -> nth_error adds j = Some b -> nth_error ids j = Some id -> spec_abs (fst a) (snd a) = spec_abs (fst b) (snd b) ->
          exists c, nth_error cs i = Some c /\ c <> QPanic /\ (forall id', c = QDone id' -> id' = id) /\
            ((2 * List.length (spec_abs (fst a) (snd a)) + 3 <= count_occ Nat.eq_dec sched i)%nat -> c = QDone id).
Proof.
  intros R Hr HK. destruct (set_up grow adds K R Hr HK) as (s & ids & E & O & W & Ef & F). exists s, ids. split; [exact E|]. intros later sched Hl.
  assert (Eb : forall a, rooted (fst a) -> begin_add (fst a) (snd a) = QPart 0 (parts_of (spec_abs (fst a) (snd a)))).
  { intros a Ra. unfold begin_add. rewrite path_abs_spec, path_parts_show by (exact Ra || apply spec_abs_ok). reflexivity. }
  assert (Hk : forall a, In a later -> exists id, is_path (paths_of s) id (parts_of (spec_abs (fst a) (snd a)))).
  { intros a Ha. destruct (Hl a Ha) as (_ & b & Hb & Es). rewrite Es. apply In_nth_error in Hb. destruct Hb as [j Ej].
    destruct (nth_error ids j) as [id|] eqn:Ei; [exists id; exact (forall2_at _ _ _ F j _ _ Ei Ej)|].
    apply nth_error_None in Ei. assert (List.length ids = List.length adds) as Q by (clear -F; induction F; cbn [List.length]; congruence). rewrite Q in Ei. apply nth_error_None in Ei. congruence. }
  destruct (quiet_race grow s sched (start later)) as [Fs Nc].
  { intros i c Ei k. unfold start in Ei. rewrite nth_error_map in Ei. destruct (nth_error later i) as [a|] eqn:Ea; [|discriminate]. cbn [option_map] in Ei.
    pose proof (nth_error_In _ _ Ea) as Ha. rewrite (Eb a (proj1 (Hl a Ha))) in Ei. assert (c = QPart 0 (parts_of (spec_abs (fst a) (snd a)))) as -> by congruence.
    destruct (Hk a Ha) as [id P]. exact (proj1 (quiet grow s id _ O W P k)). }
  destruct (path_race grow sched s (start later)) as [s1 cs] eqn:Er. cbn [fst snd] in Fs, Nc. subst s1. exists cs. split; [reflexivity|].
  intros i a j b id Ea Ej Ei Es. pose proof (nth_error_In _ _ Ea) as Ha. pose proof (forall2_at _ _ _ F j _ _ Ei Ej) as P. cbn beta in P. rewrite <- Es in P.
  specialize (Nc i (QPart 0 (parts_of (spec_abs (fst a) (snd a))))). rewrite Nc by (unfold start; rewrite nth_error_map, Ea; cbn [option_map]; rewrite (Eb a (proj1 (Hl a Ha))); reflexivity).
  eexists. split; [reflexivity|]. destruct (quiet_end grow s id _ O W P (count_occ Nat.eq_dec sched i)) as [Q1 Q2]. split; [exact Q1|]. split; [exact Q2|].
  intros L. rewrite (proj2 (quiet grow s id _ O W P _)); [reflexivity|]. destruct (spec_abs (fst a) (snd a)) as [|z zs]; cbn [parts_of List.length] in *; lia.
Qed.
Print Assumptions C118_known_partial.

(** Refuted: whatever was added before, two goroutines that add one new name each, in directories
    that are there (numbers [i] and [j]), can get the same number, which has the path of the second. *)
Theorem C118_other_path_refuted grow adds K : ops_ok (as_ops adds) -> room (as_ops adds) < 4294967290 ->
  (forall a, In a adds -> (8 * List.length (spec_abs (fst a) (snd a)) + 9 <= K)%nat) ->
  exists s ids, path_race grow (turns (List.length adds) K) new_pset (start adds) = (s, map QDone ids) /\
    forall i ci x j cj y, is_path (paths_of s) i ci -> is_path (paths_of s) j cj ->
      (forall id, ~ is_path (paths_of s) id (ci ++ [x])) -> (forall id, ~ is_path (paths_of s) id (cj ++ [y])) -> nlen y < 4294967296 ->
      forall cwd p q, path_parts (path_abs cwd p) = ci ++ [x] -> path_parts (path_abs cwd q) = cj ++ [y] ->
      exists sched s' id, path_race grow sched s (start [(cwd, p); (cwd, q)]) = (s', [QDone id; QDone id]) /\
        fn_abs (paths_of s') id = Ok (47 :: join_sep (cj ++ [y])).
Proof.
  intros R Hr HK. assert (N1 : nlen new_fnames = 1) by reflexivity.
  destruct (set_up grow adds K R) as (s & ids & E & O & W & Ef & F); [lia|exact HK|]. exists s, ids. split; [exact E|].
  destruct (fn_run_spec (as_ops adds) new_fnames R new_wf) as (d & ids' & E' & _ & _ & L & _); [lia|].
  assert (d = paths_of s) as -> by congruence. intros i ci x j cj y Pi Pj Nx Ny Hy cwd p q Ep Eq.
  destruct (wrong_path grow s i ci x j cj y O W) as (sched & s' & Er & Ea); auto; [lia|].
  exists sched, s', (nlen (paths_of s)). split; [|exact Ea]. unfold start, begin_add. cbn [map fst snd]. rewrite Ep, Eq. exact Er.
Qed.
Print Assumptions C118_other_path_refuted.

(** With /a/1 and /b/1 there, of goroutines adding /a/2 and /b/2 both get number 5, which has path
    /b/2 for good. *)
Definition there : list (bytes * bytes) := [(bs "/", bs "/a/1"); (bs "/", bs "/b/1")].
Example C118_example grow : exists s s', path_race grow (turns 2 25) new_pset (start there) = (s, [QDone 2; QDone 4]) /\
  path_race grow (repeat 0%nat 5 ++ repeat 1%nat 10 ++ repeat 0%nat 5) s (start [(bs "/", bs "a/2"); (bs "/", bs "b/2")]) = (s', [QDone 5; QDone 5]) /\
  fn_abs (paths_of s') 5 = Ok (bs "/b/2") /\ fn_abs (paths_of s') 2 = Ok (bs "/a/1").
Proof. eexists. eexists. split; [vm_compute; reflexivity|]. split; [vm_compute; reflexivity|]. split; vm_compute; reflexivity. Qed.
Example C118_met : ops_ok (as_ops there) /\ room (as_ops there) < 4294967290 /\ (forall a, In a there -> (8 * List.length (spec_abs (fst a) (snd a)) + 9 <= 25)%nat) /\
  path_parts (path_abs (bs "/") (bs "a/2")) = [bs "a"] ++ [bs "2"].
Proof.
  split. { intros c p [H|[H|[]]]; exists []; injection H as <- _; reflexivity. } split; [reflexivity|]. split; [|reflexivity].
  intros a [<-|[<-|[]]]; vm_compute; repeat constructor.
Qed.

(** Refuted too: that a call comes to an end. A goroutine adding /x, having loaded the slice, is
    overtaken by one adding /a/b/c, and stores a slice too short for the number of /a/b. *)
Theorem C118_ends_refuted grow : exists sched s' c,
  path_race grow sched new_pset (start [(bs "/", bs "/x"); (bs "/", bs "/a/b/c")]) = (s', [c; QPanic]).
Proof. exists (repeat 0%nat 6 ++ repeat 1%nat 15 ++ repeat 0%nat 2 ++ repeat 1%nat 1). eexists. eexists. vm_compute. reflexivity. Qed.
Print Assumptions C118_ends_refuted.

(** The hypothesis of [C118_known_partial]: /a/1 and /b/1 again, in other words. *)
Example C118_known_met : forall a, In a [(bs "/a", bs "1"); (bs "/a", bs "../b/./1")] ->
  rooted (fst a) /\ exists b, In b there /\ spec_abs (fst a) (snd a) = spec_abs (fst b) (snd b).
Proof.
  intros a [<-|[<-|[]]]; (split; [exists (bs "a"); reflexivity|]).
  - exists (bs "/", bs "/a/1"). split; [left; reflexivity|vm_compute; reflexivity].
  - exists (bs "/", bs "/b/1"). split; [right; left; reflexivity|vm_compute; reflexivity].
Qed.
