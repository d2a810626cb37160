(** What the commands write to standard output: cmd/dupi/extract.go:86-117, blot.go:76-86,
    like.go:134-137 and unblot.go:73-81, with the verbs of fmt and json.MarshalIndent (Go 1.17)
    they use; and json.Decoder, as a reader of it. *)
From Coq Require Import String.
From Verif Require Import Model.Base Model.Index Model.Query Model.Cmd Model.Hex Model.Json Spec.Str.
Local Open Scope N_scope.
Local Open Scope list_scope.

(** fmt's %d for a uint32 *)
Definition print_dec (n : N) : bytes := digits 10 n.

(** extract.go:114-115 *)
Definition plain_doc (key : bytes * N * N) : bytes :=
  let '(path, start, end_) := key in bs " " ++ path ++ bs "@" ++ print_dec start ++ bs ":" ++ print_dec end_.
(** extract.go:109-118; [only]: the flag -b *)
Definition plain_entry (only : bool) (e : blot_entry) : bytes :=
  print_hex (be_blot e) ++ (if only then [] else concat (map plain_doc (keys_of (be_docs e)))) ++ [10].

(** encode.go, sliceEncoder and arrayEncoder, followed by indent.go: one line per element; an
    empty array stays on its line. *)
Fixpoint json_elements (ind : bytes) (vs : list bytes) : bytes :=
  match vs with
  | [] => []
  | [v] => [10] ++ ind ++ v
  | v :: r => [10] ++ ind ++ v ++ [44] ++ json_elements ind r
  end.
Definition json_array (depth : nat) (vs : list bytes) : bytes :=
  match vs with
  | [] => [91; 93]
  | _ => [91] ++ json_elements (repeat 9 (S depth)) vs ++ [10] ++ repeat 9 depth ++ [93]
  end.
(** encode.go, uintEncoder: strconv.AppendUint *)
Definition json_doc (key : bytes * N * N) : bytes :=
  let '(path, start, end_) := key in
  json_object 3 [(bs "Path", json_string path); (bs "Start", print_dec start); (bs "End", print_dec end_)].
Definition json_docs (ds : docs) : bytes :=
  match ds with None => bs "null" | Some _ => json_array 2 (map json_doc (keys_of ds)) end.
(** extract.go:97: json.MarshalIndent of a slice with one element; doc.go:29-34, blot.go:31-34
    (the field Dat is left out). *)
Definition json_entry (e : blot_entry) : bytes :=
  json_array 0 [json_object 1 [(bs "Blot", print_dec (be_blot e)); (bs "Docs", json_docs (be_docs e))]].
(** What the loop of extract.go:69-124 writes in all, for the entries it prints. -b has no
    effect with -json. Failures to write are not modelled. *)
Definition extract_text (json only : bool) (out : list blot_entry) : bytes :=
  concat (map (if json then json_entry else plain_entry only) out).

(** blot.go:81-85 *)
Definition blot_line (l : N * option (N * N)) : bytes :=
  print_hex (fst l) ++ match snd l with None => [] | Some (s, e) => bs " " ++ print_dec s ++ bs ":" ++ print_dec e end ++ [10].
(** like.go:136 and unblot.go:79 *)
Definition doc_line (key : bytes * N * N) : bytes :=
  let '(path, start, end_) := key in [9] ++ path ++ bs " " ++ print_dec start ++ bs ":" ++ print_dec end_ ++ [10].
(** like.go:134-137 *)
Definition like_text (fname : bytes) (keys : list (bytes * N * N)) : bytes :=
  bs "like " ++ fname ++ bs ":" ++ [10] ++ concat (map doc_line keys).
(** unblot.go:77-80 *)
Definition unblot_text (g : bytes * list (bytes * N * N)) : bytes :=
  bs "text:" ++ [10] ++ bs "'''" ++ [10] ++ fst g ++ bs "'''" ++ [10] ++ concat (map doc_line (snd g)).

(** json.Decoder.Decode (stream.go) called until it says io.EOF: all values of a stream, or an
    error. [fuel] is the length of what is left. *)
Fixpoint stream_loop (fuel : nat) (d : bytes) : option (list jval) :=
  match skip_space d with
  | [] => Some []
  | d' =>
      match fuel with
      | O => None
      | S k => match scan_value (2 * List.length d' + 2) d' with
               | Some (v, r) => if too_deep v then None else match stream_loop k r with Some vs => Some (v :: vs) | None => None end
               | None => None
               end
      end
  end.
Definition json_stream (d : bytes) : option (list jval) := stream_loop (List.length d) d.
