(** The tests of /repo, in the model. No claims of properties.jsonl: a check of the model
    against what the authors of the code expect of it. lock/file_test.go asserts nothing, TestToken and
    TestTrigram print; what they print is given here. TestEstimate and TestTridat draw random
    values; what they assert without exception is C50. *)
From Coq Require Import String.
From Verif Require Import Model.Base Model.Utf8 Model.Token Model.Blotter Model.Post Model.Poster Model.Shard Model.Dmd Model.Fnames Model.Trigram Model.Bloom Model.Conc Model.Config Model.Run Model.Index Model.Query Model.Session.
From Verif Require Import Spec.Configs Spec.Paths Spec.Querying Spec.History Spec.Str.
From Verif Require Import Proof.Tactics Proof.DocidP.
Local Open Scope N_scope.
Local Open Scope list_scope.

(** dmd/adder_test.go *)
Example test_adder : exists file,
  dmd_sessions None [(16384%Z, [MkFields 1 2 3; MkFields 2 3 4; MkFields 3 0 11; MkFields 1 3 222]); (16384%Z, [MkFields 2 4 7])]
    = Ok (Some file, [1; 2; 3; 4; 5]) /\
  dmd_lookup file 1 = Ok (MkFields 1 2 3) /\ dmd_lookup file 2 = Ok (MkFields 2 3 4) /\ dmd_lookup file 5 = Ok (MkFields 2 4 7).
Proof. eexists. split; [vm_compute; reflexivity|]. repeat split; vm_compute; reflexivity. Qed.

(** blotter/circ_test.go *)
Fixpoint blots_of (u : unicode) (c : circ) (l : list bytes) : result (list N) :=
  match l with
  | [] => Ok []
  | w :: l => do! (c, h) <- circ_blot u c w; do! r <- blots_of u c l; Ok (h :: r)
  end.
Example test_circ : forall u, exists x1 x2 h j y1 y2 g,
  (do! c <- new_circ 3; blots_of u c [bs "a"; bs "b"; bs "c"; bs "xyzabc"; bs "a"; bs "b"; bs "c"]) = Ok [x1; x2; h; j; y1; y2; g] /\
  g = h /\ g <> j.
Proof. intros u. do 7 eexists. split; [vm_compute; reflexivity|]. split; [reflexivity|discriminate]. Qed.

(** token/t_test.go *)
Example test_token : forall u, tokenize u (bs "abc,123" ++ [10] ++ bs "I.  am" ++ [10; 10] ++ bs "zz.") 0 =
  [MkTok Word (bs "abc") 0; MkTok Other (bs ",") 3; MkTok Word (bs "123") 4; MkTok Other [10] 7; MkTok Word (bs "I") 8;
   MkTok Other (bs ".  ") 9; MkTok Word (bs "am") 12; MkTok Other [10; 10] 14; MkTok Word (bs "zz") 16].
Proof. intros u. vm_compute. reflexivity. Qed.

(** attic/trigram/t_test.go *)
Definition tri_tok (t : token) : ttoken := MkTTok (match t_tag t with Word => TWord | Other => TOther end) (t_lit t).
Example test_trigram : forall u, exists l, from_tokens [] (map tri_tok (tokenize u (bs "I am a fox.") 0)) = Ok l /\
  map tri_string l = map bs ["i_a"; "_am"; "am_"; "m_a"; "_a_"; "a_f"; "_fo"; "fox"]%string.
Proof. intros u. eexists. split; [vm_compute; reflexivity|vm_compute; reflexivity]. Qed.

(** fnames_test.go *)
Example test_fnames :
  (do! (s, a) <- add_path (bs "/home") new_fnames (bs "/a");
   do! (s, b) <- add_path (bs "/home") s (bs "/b");
   do! (s, ab) <- add_path (bs "/home") s (bs "/a/b");
   do! (s, cwd) <- add_path (bs "/home") s (bs ".");
   do! ss <- read_fnames (fn_write s);
   do! (sc, bc) <- add_path (bs "/home") ss (bs "/b/c");
   Ok (fn_abs s a, fn_abs s b, fn_abs s ab, fn_abs ss a, fn_abs ss b, fn_abs ss ab, fn_abs sc bc, fn_abs ss cwd))
  = Ok (Ok (bs "/a"), Ok (bs "/b"), Ok (bs "/a/b"), Ok (bs "/a"), Ok (bs "/b"), Ok (bs "/a/b"), Ok (bs "/b/c"), Ok (bs "/home")).
Proof. vm_compute. reflexivity. Qed.

(** internal/shard/post_test.go, with other numbers than rand's *)
Fixpoint gen (n : nat) (cur seed : N) : list N :=
  match n with
  | O => []
  | S n => let cur := cur + seed mod 117 + 1 in cur :: gen n cur ((seed * 1103515245 + 12345) mod 2147483648)
  end.
Fixpoint read_posts (n : nat) (p : posts) (f : bytes) : result (list N) :=
  match n with
  | O => Loop
  | S n => match posts_next p f with
           | Ok (d, p) => do! r <- read_posts n p f; Ok (d :: r)
           | Err EOF => Ok []
           | Err e => Err e
           | Panic => Panic
           | Loop => Loop
           end
  end.
Definition test_write (ps : list N) : poster * bytes :=
  let '(p, d) := fold_left (fun st v => let '(p, ws) := Poster.add_post (fst st) v (snd st) in (p, apply_wops (snd st) ws)) ps (new_poster, []) in
  let '(p, ws) := flush_to p d in (p, apply_wops d ws).
Example test_posts : let ps := gen (Z.to_nat 1311) 200000000 42 in let '(p, d) := test_write ps in
  read_posts (Z.to_nat 2000) (new_posts (p_head p)) d = Ok ps.
Proof. vm_compute. reflexivity. Qed.

(** index_test.go *)
Definition msg1 : bytes := bs "We need atleast 10 tokens for this to work sensibly.".
Definition msg2 : bytes := bs "We need atleast 10 tokens for this to work sensibly, really".
Definition test_docs : list (bytes * doc) :=
  [(bs "/home", MkDoc (bs "/test/msg") 0 (nlen msg1) msg1); (bs "/home", MkDoc (bs "/test/msg2") 0 (nlen msg2) msg2)].
Theorem test_index_docid2doc : forall u sorted c dk, new_config (bs "/home") (bs "dupi123/dupi") 4 10 = Ok c -> sorts sorted ->
  session u (create_indexer c) test_docs dk ->
  exists ix, open_index sorted dk = Ok ix /\ docid2doc ix 1 = Ok (bs "/test/msg", 0, nlen msg1).
Proof.
  intros u sorted c dk Ec Hs Ss. vm_compute in Ec. injection Ec as <-.
  assert (F : cfg_full (MkConfig (bs "/home/dupi123/dupi") 10 4 2 16384 words_simple default_blot_config) 1 10 4).
  { constructor; [constructor; vm_compute; try reflexivity; lia|reflexivity|discriminate]. }
  destruct (docid_place u _ 1 10 4 sorted F Hs [test_docs] dk) as (ix & Eo & P & _).
  - constructor. exact Ss.
  - constructor; [|reflexivity|vm_compute; reflexivity].
    repeat constructor; try (eexists; reflexivity); vm_compute; reflexivity.
  - exists ix. split; [exact Eo|]. rewrite (P 1) by (vm_compute; split; discriminate). reflexivity.
Qed.
