(** What one of several indexes is supposed to hold. *)
From Verif Require Import Model.Base Model.Blotter Model.Config Model.Index Model.Several Spec.Configs Spec.History.
Local Open Scope N_scope.
Local Open Scope list_scope.

(** The sessions of the index with the root of [c] since it was created, the latest first. *)
Fixpoint own (c : config) (evs : list event) : list (list (bytes * doc)) :=
  match evs with
  | [] => []
  | Created c' :: r => if list_eq_dec N.eq_dec (cf_root c') (cf_root c) then [] else own c r
  | Finished c' docs :: r => if list_eq_dec N.eq_dec (cf_root c') (cf_root c) then docs :: own c r else own c r
  | _ :: r => own c r
  end.
(** Good configurations, and never too many documents. *)
Definition fits (evs : list event) : Prop :=
  (forall c, In (Created c) evs -> (exists k m n, cfg_full c k m n) /\ cfg_values c) /\
  forall later before, evs = later ++ before -> forall c, In c (alive before) -> docs_fit (all_docs (own c before)).
