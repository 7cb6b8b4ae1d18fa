(** Specification for C178: drives that keep at most one session with the Admin SP open (TCG Core 3.3.7.1.1: one read-write session per SP), and when
    such a session ends (5.2.3.3 EndOfSession, Opal 5.1.2 Revert aborts all sessions). *)
From Verif Require Import Base Spec_Tcg M_TcgToken M_Buffer M_TcgCommand M_TcgDevice M_TcgSession Spec_TcgCommand Spec_TcgClient Spec_TcgSession M_TcgTables M_TcgProgram.

(** A packet whose payload, after 56 bytes of header, invokes [method] on [object]. *)
Definition invokes (packet object method args : bytes) : Prop :=
  exists header, List.length header = 56%nat /\ List.length object = 8%nat /\ List.length method = 8%nat
  /\ packet = header ++ [0xF8; 0xA8] ++ object ++ [0xA8] ++ method ++ [0xF0] ++ args.
(** SMUID.StartSession [ 105, AdminSP, TRUE ... *)
Definition starts (packet : bytes) : Prop :=
  exists more, invokes packet [0; 0; 0; 0; 0; 0; 0; 0xFF] [0; 0; 0; 0; 0; 0; 0xFF; 2] ([0x81; 105; 0xA8; 0; 0; 2; 5; 0; 0; 0; 1; 1] ++ more).
(** Revert (on an SP object) and RevertSP *)
Definition reverts (packet : bytes) : Prop :=
  exists object method args, invokes packet object method args /\ (method = [0; 0; 0; 6; 0; 0; 2; 2] \/ method = [0; 0; 0; 6; 0; 0; 0; 0x11]).
(** The end-of-session token is FAh. *)
Definition ends_session (packet : bytes) : Prop := exists header rest, List.length header = 56%nat /\ packet = header ++ [0xFA] ++ rest.

(** No IF-SEND or IF-RECV of the TCG protocols (1: packets, 2: ComID management) in a stretch of history. *)
Definition elsewhere (t : hist) : Prop := forall snd dma proto com b tmo, In (EvSec snd dma proto com b tmo) t -> proto <> 1 /\ proto <> 2.

(** [busy h]: after the history [h] the drive has a session with the Admin SP open.  It opens one only when none is open, and the session
    lasts until the host ends it or reverts the SP (no session timeout, the Opal default); a Revert the drive answers with a failure leaves it open. *)
Definition one_session (E : env) (d : device) (busy : hist -> Prop) : Prop :=
  (forall c h t resp packet, exec E d c 1 h = (h ++ t, Ok (Some resp, None)) -> sends t = [packet] -> starts packet -> accepted resp ->
     ~ busy h /\ busy (h ++ t))
  /\ (forall c h t r packet, busy h -> exec E d c 1 h = (h ++ t, r) -> sends t = [packet] ->
     busy (h ++ t) \/ ends_session packet \/ reverts packet /\ ~ exists resp, r = Ok (Some resp, None) /\ ~ accepted resp)
  /\ (forall h t, busy h -> elsewhere t -> busy (h ++ t)).

(** The calls considered: everything except sending a command of the caller's own making; arguments are byte strings, SPs and tables are
    UIDs of 8 bytes, columns 16-bit numbers; what else happens keeps off the TCG protocols. *)
Definition library_call (c : tcall) : Prop :=
  match c with
  | TSession _ (SStart sp ch a) => wf sp /\ List.length sp = 8%nat /\ wf ch /\ match a with AUid u => wf u /\ blen u <= 8 | ABuf b => wf b /\ blen b <= 50000 | ANil => True end
  | TSession _ (SAuth auth ch) => wf auth /\ blen auth <= 50000 /\ wf ch
  | TSession _ (SSend _) => False
  | TTable _ table a b => (exists u, table = uid8 u /\ wf u /\ List.length u = 8%nat) /\ a < 2 ^ 16 /\ b < 2 ^ 16
  | TRevert pw _ _ => wf pw
  | TElse t => elsewhere t
  | _ => True
  end.
(** The calls that need a new session with the Admin SP. *)
Definition needs_session (c : tcall) : Prop :=
  match c with TSession _ (SStart sp _ _) => sp = uid_AdminSP | TPassword | TRevert _ _ _ => True | _ => False end.
