(** What is claimed about concurrent use, in terms of the observable trace only (M_Concurrent: calls, system calls, who makes them). *)
From Verif Require Import Base M_Concurrent.

Definition who (l : label) : nat :=
  match l with VBegin t _ | VEnd t _ | VRead t _ | VOpen t _ _ | VMade t _ _ _ | VIoctl t _ _ _ | VClose t _ _ _ | VPanic t _ => t end.
(** After [tr] goroutine [t] is inside the call [o]. *)
Definition inside (tr : list label) (t : nat) (o : call_op) : Prop :=
  exists tr1 tr2, tr = tr1 ++ VBegin t o :: tr2 /\ ~ In (VEnd t o) tr2.
(** The discipline of a readers-writer lock around each handle: nobody else is using a handle while Close runs on it. *)
Definition orderly (tr : list label) : Prop :=
  forall p q t t' h o, tr = p ++ q -> t <> t' -> inside p t (OpClose h) -> inside p t' o -> op_handle o = Some h -> False.
(** The device a call is meant for: the one to be opened, or the one the handle was opened for. *)
Definition meant (tr : list label) (o : call_op) (dev : N) : Prop :=
  match op_handle o with
  | None => o = OpOpen dev
  | Some h => exists t fd, In (VMade t dev fd h) tr
  end.
(** Number of close(2) calls made for handle [h] *)
Definition closes (h : nat) (l : label) : bool := match l with VClose _ (OpClose k) _ _ => Nat.eqb k h | _ => false end.
Definition close_calls (h : nat) (l : label) : bool := match l with VBegin _ (OpClose k) => Nat.eqb k h | _ => false end.
Definition count (f : label -> bool) (tr : list label) : nat := List.length (filter f tr).
