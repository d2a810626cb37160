(** What inspect prints of an index. *)
From Coq Require Import String QArith Qabs.
From Verif Require Import Model.Base Model.Json Spec.Str Spec.Cmdline Spec.Printed Spec.Double.
Local Open Scope N_scope.
Local Open Scope list_scope.

(** [x] with two places after the point. *)
Inductive two_places (x : Q) : bytes -> Prop :=
  | two_places_ w n a b : numeral Printed.decimal w n -> a < 10 -> b < 10 ->
      (Qabs (inject_Z (Z.of_N (100 * n + 10 * a + b)) / 100 - x) <= 1 # 200)%Q ->
      two_places x (w ++ bs "." ++ [48 + a; 48 + b]).
(** A decimal number [t] that becomes [x] when it is read. Unless it is 0, none with fewer
    places is, and of those with as many places none is nearer to [x]. *)
Definition exactly (x : Q) (t : bytes) : Prop :=
  exists q, real t q /\ converted q x /\
    ((q == 0)%Q \/ exists d e, (q == inject_Z d * inject_Z 10 ^ e)%Q /\
       forall d' e', converted (inject_Z d' * inject_Z 10 ^ e')%Q x ->
         (e' <= e)%Z /\ (e' = e -> (Qabs (q - x) <= Qabs (inject_Z d' * inject_Z 10 ^ e' - x))%Q)).

(** The text: root, numbers of documents, nodes, posts and blots, mean and deviation. *)
Definition shows_stats (root : bytes) (docs nodes posts blots : N) (mean sigma : Q) (t : bytes) : Prop :=
  exists d n p b m s, numeral Printed.decimal d docs /\ numeral Printed.decimal n nodes /\ numeral Printed.decimal p posts /\ numeral Printed.decimal b blots /\
    two_places mean m /\ two_places sigma s /\
    let line v (what : string) := [9] ++ bs "- " ++ v ++ bs " " ++ bs what ++ [10] in
    t = bs "dupi index at " ++ root ++ bs ":" ++ [10] ++ line d "docs"%string ++ line n "nodes in path tree"%string ++
        line p "posts"%string ++ line b "blots"%string ++ line m "mean docs per blot"%string ++ line s "sigma (std deviation)"%string.
(** The JSON value. *)
Definition value_stats (root : bytes) (docs nodes posts blots : N) (mean sigma : Q) (v : jval) : Prop :=
  exists d n p b m s, numeral Printed.decimal d docs /\ numeral Printed.decimal n nodes /\ numeral Printed.decimal p posts /\ numeral Printed.decimal b blots /\
    exactly mean m /\ exactly sigma s /\
    v = JObj [(bs "Root", JStr root); (bs "NumDocs", JNum d); (bs "NumPaths", JNum n); (bs "NumPosts", JNum p); (bs "NumBlots", JNum b);
              (bs "BlotMean", JNum m); (bs "BlotSigma", JNum s)].

Example two_places_example : two_places (1 # 8) (bs "0.12").
Proof. apply (two_places_ _ (bs "0") 0 1 2); [apply (numeral_one _ _ 0); reflexivity| | |]; [reflexivity|reflexivity|]. vm_compute. discriminate. Qed.
