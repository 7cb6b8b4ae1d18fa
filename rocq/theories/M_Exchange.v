(** Several goroutines using TCG devices of one drive.  tcg/device.go:174-207 (Exec) holds no lock between its send and its
    receives, and neither does SecurityCommand (drive_handle.go of the main package): calls of different goroutines may
    reach the drive in any order.  The run is described by the order in which the calls of all goroutines took place. *)
From Verif Require Import Base M_TcgDevice.

(** Every call leaving the package, with the goroutine that made it; oldest first. *)
Definition gtrace := list (nat * ev).

(** The calls of goroutine [t]: what M_TcgDevice calls its history. *)
Definition own (t : nat) (G : gtrace) : hist := map snd (filter (fun x => (fst x =? t)%nat) G).

(** The run up to and including the [n]-th call of goroutine [t]. *)
Fixpoint upto (t n : nat) (G : gtrace) : gtrace :=
  match n, G with
  | O, _ | _, [] => []
  | S m, (u, e) :: G' => (u, e) :: upto t (if (u =? t)%nat then m else n) G'
  end.

(** Drive and clock: they answer a call knowing everything all goroutines did before it. *)
Record world := { w_clock : gtrace -> N; w_sec : gtrace -> option err * bytes }.

(** What goroutine [t] experiences in the run [G]: its [n]-th call is answered as the world answers after everything that
    had happened by then.  Everything else (PBKDF2, memory behind buffers, poll bound) is taken from [E]. *)
Definition view (W : world) (E : env) (G : gtrace) (t : nat) : env :=
  {| e_clock := fun h => w_clock W (upto t (List.length h) G);
     e_sec := fun h => w_sec W (upto t (List.length h) G);
     e_pbkdf2 := e_pbkdf2 E; e_heap := e_heap E; e_fuel := e_fuel E |}.
