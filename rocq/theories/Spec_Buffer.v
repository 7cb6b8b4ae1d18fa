(** Independent specification for byte buffers and byte order helpers. *)
From Verif Require Import Base.

(** Reading a byte sequence in chunks of the requested sizes; an empty chunk is end-of-file. *)
Fixpoint chunks (l : bytes) (ns : list nat) : list (option bytes) :=
  match ns with
  | [] => []
  | n :: ns' =>
    match firstn n l with
    | [] => None :: chunks l ns'
    | c => Some c :: chunks (skipn n l) ns'
    end
  end.

(** Two buffers agree outside [lo, hi). *)
Definition same_outside (lo hi : nat) (l l' : bytes) : Prop :=
  List.length l = List.length l' /\
  forall i, (i < lo \/ hi <= i)%nat -> nth_error l i = nth_error l' i.

(** Index of the partner byte in a 16-bit word. *)
Definition partner (i : nat) : nat := if Nat.even i then i + 1 else i - 1.
