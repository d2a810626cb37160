(** An index whose files have been cut short. *)
From Verif Require Import Model.Base Model.Session Model.Crash.

(** [new] is a beginning of [old], perhaps all of it, or is gone. *)
Definition cut_from (old new : option bytes) : Prop :=
  match new with None => True | Some b => exists t, old = Some (b ++ t) end.
(** Each of the files by itself. *)
Record shortened (old new : files) : Prop := {
  sh_cfg : cut_from (w_cfg old) (w_cfg new);
  sh_dmd : cut_from (w_dmd old) (w_dmd new);
  sh_fnames : cut_from (w_fnames old) (w_fnames new);
  sh_shards : Forall2 (fun o f => cut_from (fst o) (fst f) /\ cut_from (snd o) (snd f)) (w_shards old) (w_shards new) }.
