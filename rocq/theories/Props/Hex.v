(** C58: blots on the command line. *)
From Coq Require Import String.
From Verif Require Import Model.Base Model.Utf8 Model.Config Model.Index Model.Query Model.Cmd Model.Hex Spec.Text Spec.Str Proof.HexP Spec.Hexes.
Local Open Scope N_scope.
Local Open Scope list_scope.

(** "unblot looks up the blot that its argument spells in hexadecimal, as blot and extract
    print it, and refuses any other argument."

    What blot and extract print spells the blot, and unblot shows what belongs to it. *)
Theorem C58_print_spells : forall b, b < 2 ^ 32 -> spells (print_hex b) b /\ Forall (fun c => In c lower_digits) (print_hex b).
Proof. exact print_spells. Qed.
Theorem C58_printed_is_understood : forall u fs grow ix fuel all qs gs, Forall (fun q => q < 2 ^ 32) qs ->
  Forall2 (fun q g => unblot u fs grow ix fuel all q = Ok g) qs gs ->
  unblot_args u fs grow ix fuel all (map print_hex qs) = (gs, Ok tt).
Proof. exact unblot_printed. Qed.
(** False: an argument that is no number is not refused. What counts is the longest run of
    digits at its start (after white space), if it is not empty and below 2^32 ... *)
Theorem C58_scan_exact_partial : forall arg v, scan_hex arg = Ok v <->
  exists sp ds rest, arg = sp ++ ds ++ rest /\ spaces sp /\ spells ds v /\ v < 2 ^ 32 /\
    match rest with [] => True | c :: _ => forall d, ~ digit c d end.
Proof. exact scan_exact. Qed.
(** ... so that every number written with 0x in front is blot 0. *)
Theorem C58_0x_refuted : forall s, scan_hex (bs "0x" ++ s) = Ok 0.
Proof. exact scan_0x. Qed.
Print Assumptions C58_print_spells.
Print Assumptions C58_printed_is_understood.
Print Assumptions C58_scan_exact_partial.
Print Assumptions C58_0x_refuted.
Example C58_example : print_hex 114941 = bs "1c0fd" /\ scan_hex (bs "1c0fd") = Ok 114941 /\ scan_hex (bs " 1C0FDzz") = Ok 114941 /\
  scan_hex (bs "zz") = Err EOther /\ scan_hex (bs "100000000") = Err EOther /\ scan_hex (bs "") = Err EOther.
Proof. repeat split; vm_compute; reflexivity. Qed.
