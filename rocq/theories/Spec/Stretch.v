(** Stretches of text, and documents in files. *)
From Verif Require Import Model.Base Model.Index Spec.Text Spec.Fingerprint Spec.History.
Local Open Scope N_scope.

(** [t] is the text of [dat] from word number [j] to the end of word number [j + l], the
    words being at [sp] (Spec/Text). *)
Definition stretch (l : nat) (dat : bytes) (sp : list (nat * nat)) (j : nat) (t : bytes) : Prop :=
  exists a z, nth_error sp j = Some a /\ nth_error sp (j + l) = Some z /\ t = sub (fst a) (snd z) dat.

(** The document at [key] (path, start, end) is in its file with the data [dat]; start and
    end zero mean the whole file. *)
Definition in_file (fs : bytes -> option bytes) (key : bytes * N * N) (dat : bytes) : Prop :=
  let '(path, start, end_) := key in
  exists content before after, fs path = Some content /\ content = before ++ dat ++ after /\
    ((start = 0 /\ end_ = 0 /\ before = [] /\ after = []) \/
     (start < end_ /\ end_ < 2 ^ 32 /\ nlen before = start /\ nlen before + nlen dat = end_)).
(** The document at [key] cannot be read: no file, or one that ends too early. *)
Definition missing (fs : bytes -> option bytes) (key : bytes * N * N) : Prop :=
  let '(path, start, end_) := key in
  fs path = None \/ exists content, fs path = Some content /\ start < end_ /\ end_ < 2 ^ 32 /\ nlen content < end_.
(** What is shown of it: its path and byte range. *)
Definition shown (key : bytes * N * N) (dat : bytes) : bytes * N * N :=
  let '(path, start, _) := key in (path, start, start + nlen dat).

(** Stretches by their blots: [H], [k], [m], [n] as in Spec/Fingerprint; [ws] are the words of
    [dat] and [sp] their places. *)
Section Blots.
  Variables (H : bytes -> N) (k m n : nat).
  (** [t] is a stretch of k*m+1 words with blot [q]; the first, the last such. *)
  Definition some_window (dat : bytes) (ws : list bytes) (sp : list (nat * nat)) (q : N) (t : bytes) : Prop :=
    exists i, carries H k m n ws q (i + k * m) /\ stretch (k * m) dat sp i t.
  Definition first_window (dat : bytes) (ws : list bytes) (sp : list (nat * nat)) (q : N) (t : bytes) : Prop :=
    exists i, carries H k m n ws q (i + k * m) /\ (forall j, (j < i + k * m)%nat -> ~ carries H k m n ws q j) /\ stretch (k * m) dat sp i t.
  Definition last_window (dat : bytes) (ws : list bytes) (sp : list (nat * nat)) (q : N) (t : bytes) : Prop :=
    exists i, carries H k m n ws q (i + k * m) /\ (forall j, (i + k * m < j)%nat -> ~ carries H k m n ws q j) /\ stretch (k * m) dat sp i t.
  (** [t] is the first stretch with blot [q] of the document at [key], which is in its file
      with data [dat]. *)
  Definition text_at (word : N -> bool) (fs : bytes -> option bytes) (key : bytes * N * N) (q : N) (dat t : bytes) : Prop :=
    in_file fs key dat /\ exists ws sp, doc_words word dat ws /\ doc_spans word dat sp /\ first_window dat ws sp q t.
  (** What is shown of the document at [key] for blot [q]: text and place, or nothing if it
      has no such stretch. *)
  Definition outcome (word : N -> bool) (fs : bytes -> option bytes) (q : N) (key : bytes * N * N) (o : option (bytes * (bytes * N * N))) : Prop :=
    match o with
    | Some (t, sh) => exists dat, text_at word fs key q dat t /\ sh = shown key dat
    | None => forall dat t, ~ text_at word fs key q dat t
    end.
End Blots.
(** Positions in the document fit 32 bits. *)
Definition fits32 (key : bytes * N * N) (dat : bytes) : Prop := let '(_, start, _) := key in start + nlen dat < 2 ^ 32.
(** The document is as it should be or cannot be read. *)
Definition readable (fs : bytes -> option bytes) (key : bytes * N * N) : Prop :=
  missing fs key \/ exists dat, in_file fs key dat /\ fits32 key dat.
(** Every document starts at the start of its file and is there with the data it was indexed
    with. *)
Definition all_in_place (fs : bytes -> option bytes) (docs : list (bytes * doc)) : Prop :=
  forall i cwd x, nth_error docs i = Some (cwd, x) ->
    d_start x = 0 /\ nlen (d_dat x) < 2 ^ 32 /\ in_file fs (place_of docs (N.of_nat (S i))) (d_dat x).
