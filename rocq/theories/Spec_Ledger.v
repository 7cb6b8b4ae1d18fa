(** Vocabulary of C171: the file descriptors a program obtains and gives back on a Linux machine. *)
From Verif Require Import Base M_DriveHandle M_LinuxInfo M_LinuxFactory M_LinuxMachine M_BasicCalls.

Definition is_open_file (c : bcall) : bool := match c with BOpenFile _ => true | _ => false end.
Definition is_close_file (c : bcall) : bool := match c with BCloseFile => true | _ => false end.
Definition count {A} (f : A -> bool) (l : list A) : nat := List.length (filter f l).

(** One action; [g] is the history up to and including it.  Descriptors obtained: an open that succeeded, the file of a disk that diskfs.Open
    returned.  Given back: a close, the file of a disk being closed. *)
Definition obtained (M : machine) (g : ghist) (e : gev) : nat :=
  match e with
  | GFile (LOpen _) => match m_open M g with inr _ => 1 | inl _ => 0 end
  | GFile (LBasic fd path) => match da_open (m_basic M g) with None => count is_open_file (fst (basic_run fd path (m_basic M g))) | Some _ => 0 end
  | _ => 0
  end.
Definition given_back (M : machine) (g : ghist) (e : gev) : nat :=
  match e with
  | GFile (LClose _) => 1
  | GFile (LBasic fd path) => count is_close_file (fst (basic_run fd path (m_basic M g)))
  | _ => 0
  end.
(** A partition table was read. *)
Definition table_read (M : machine) (g : ghist) (e : gev) : nat :=
  match e with GFile (LBasic _ _) => match da_open (m_basic M g) with None => 1 | Some _ => 0 end | _ => 0 end.
(** Sum over the actions [es] that follow history [g]. *)
Fixpoint total_of (w : ghist -> gev -> nat) (g es : ghist) : nat :=
  match es with [] => 0 | e :: t => w (g ++ [e]) e + total_of w (g ++ [e]) t end.
(** Handles that are still open: not closed, and with a driver. *)
Definition is_live (x : ghandle) : bool := match p_dh (gh_dh x) with Some _ => true | None => false end.
Definition live_handles (s : gstate) : nat := count is_live (st_handles s).
