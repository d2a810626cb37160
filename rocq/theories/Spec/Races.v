(** Data races, after the Go memory model (https://go.dev/ref/mem), of a trace of events:
    [happens_before] is the transitive closure of the order of each goroutine's own events
    and of the synchronising events.
    - A go statement comes before everything the new goroutine does.
    - Send and receive on an unbuffered channel: one event of both goroutines. (The send comes
      before the completion of the receive, the receive before the completion of the send.)
    - An Unlock comes before every later Lock.
    - wg.Done comes before the return of the Wait it unblocks.
    - close comes before a receive that returns because the channel is closed. *)
From Verif Require Import Model.Base Model.Fine.

(** [e] is a step of goroutine [g]. *)
Definition step_of (e : event) (g : gid) : Prop :=
  match e with
  | EAcc g' _ _ | EGo g' _ | ELock g' | EUnlock g' | EDone g' _ | EWait g' _ | EClose g' _ | EClosed g' _ => g = g'
  | EMeet g' h => g = g' \/ g = h
  end.

(** An earlier [e] comes before a later [e']. *)
Inductive orders : event -> event -> Prop :=
| Ord_program : forall e e' g, step_of e g -> step_of e' g -> orders e e'
| Ord_go : forall g h e', step_of e' h -> orders (EGo g h) e'
| Ord_mutex : forall g h, orders (EUnlock g) (ELock h)
| Ord_wg : forall g h rq, orders (EDone g rq) (EWait h rq)
| Ord_close : forall g h j, orders (EClose g j) (EClosed h j).

Inductive happens_before (tr : list event) : nat -> nat -> Prop :=
| Hb_one : forall i j e e', (i < j)%nat -> nth_error tr i = Some e -> nth_error tr j = Some e' -> orders e e' -> happens_before tr i j
| Hb_trans : forall i j k, happens_before tr i j -> happens_before tr j k -> happens_before tr i k.

(** Two accesses to one location, one of them a write, neither of which happens before the other. *)
Definition race (tr : list event) : Prop :=
  exists i j g h w w' l, i <> j /\ nth_error tr i = Some (EAcc g w l) /\ nth_error tr j = Some (EAcc h w' l) /\
    (w = true \/ w' = true) /\ ~ happens_before tr i j /\ ~ happens_before tr j i.
