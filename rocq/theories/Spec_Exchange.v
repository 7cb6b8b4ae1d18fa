(** Specification vocabulary for C134: a drive with one response buffer per ComID (TCG core spec 3.3.10.2: IF-RECV on a ComID
    returns the response to the command last sent on it). *)
From Verif Require Import Base M_TcgDevice M_Exchange.

(** A command sent, or a receive, on ComID [c] (security protocol 1). *)
Definition sends_on (c : N) (e : ev) : Prop := exists dma b tmo, e = EvSec true dma 1 c b tmo.
Definition receives_on (c : N) (e : ev) : bool :=
  match e with EvSec false _ p c' _ _ => (p =? 1) && (c' =? c) | _ => false end.

(** In the stretch [R] nobody / nobody but [t] sends on [c]. *)
Definition no_send (c : N) (R : gtrace) : Prop := forall u e, In (u, e) R -> ~ sends_on c e.
Definition left_alone (t : nat) (c : N) (R : gtrace) : Prop := forall u e, In (u, e) R -> sends_on c e -> u = t.
(** Number of receives on [c] in [R], by anybody / by others than [t]. *)
Definition receipts (c : N) (R : gtrace) : nat := List.length (filter (fun x => receives_on c (snd x)) R).
Definition undisturbed (t : nat) (c : N) (R : gtrace) : Prop := forall u e, In (u, e) R -> receives_on c e = true -> u = t.

(** A receive on ComID [c] returns the answer to the command sent last on [c], whoever sent it and whoever receives.
    [reply P n] is the answer to the command that ends [P], as found by the receive before which [n] receives on [c]
    already took place since that command. *)
Definition mailbox (W : world) (c : N) (reply : gtrace -> nat -> option err * bytes) : Prop :=
  forall P R u dma b tmo, (exists P' s e, P = P' ++ [(s, e)] /\ sends_on c e) -> no_send c R ->
  w_sec W (P ++ R ++ [(u, EvSec false dma 1 c b tmo)]) = reply P (receipts c R).

(** All answers are bytes. *)
Definition world_ok (W : world) : Prop := forall G, wf (snd (w_sec W G)).
