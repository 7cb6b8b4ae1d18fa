(** Vocabulary of C187: the TCG client at work on one handle of a program that uses other handles meanwhile. *)
From Verif Require Import Base M_TcgDevice M_DriveHandle M_TcgOnDrive M_LinuxMachine Spec_Alone.

(** The program: the SecurityCommand calls [t] of the client, made with [on], and before each of them whatever [meanwhile] says the
    program does elsewhere, given what the client has done so far. *)
Fixpoint program_of {O} (on : hop -> O) (meanwhile : hist -> list O) (past t : hist) : list O :=
  match t with
  | [] => []
  | EvSec rw dma pr c b s :: r => meanwhile past ++ on (HSec rw dma pr c b s) :: program_of on meanwhile (past ++ [EvSec rw dma pr c b s]) r
  | e :: r => program_of on meanwhile (past ++ [e]) r
  end.

(** SecurityCommand's answer among the replies the program got. *)
Definition answer_of (r : reply) : option err * bytes := match r with (OutErr e, (_, b)) => (e, b) | _ => (None, []) end.
(** The outside world of a client whose SecurityCommand calls are those of a program that got the replies [replies_to] (clock, [kdf] and
    [heap] as in [drive_env], M_TcgOnDrive.v). *)
Definition program_env {O} (replies_to : list O -> list reply) (on : hop -> O) (meanwhile : hist -> list O)
  (clock : hist -> N) (kdf : bytes -> bytes -> bytes) (heap : N -> N) (fuel : nat) : env :=
  {| e_clock := clock;
     e_sec := fun t => match rev t with
                       | EvSec _ _ _ _ _ _ :: _ => if forallb typed_ev t then answer_of (last (replies_to (program_of on meanwhile [] t)) (OutNone, (None, []))) else (None, [])
                       | _ => (None, [])
                       end;
     e_pbkdf2 := kdf; e_heap := heap; e_fuel := fuel |}.
