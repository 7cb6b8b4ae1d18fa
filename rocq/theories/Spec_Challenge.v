(** Specification for C177: what a drive reads in a StartSession and in an Authenticate packet, and what it means that it checks its PINs
    (TCG Core 5.2.3.1, 5.3.4.1.14; Opal SSC 2.01, table C_PIN: the PIN column is a byte string of at most 32 bytes). *)
From Verif Require Import Base Spec_Tcg Spec_TcgSession M_TcgToken M_Buffer M_TcgCommand M_TcgDevice M_TcgSession Spec_TcgCommand Spec_TcgClient.

(** [a] is an atom holding the byte string [s]. *)
Definition holds_bytes (a : atom) (s : bytes) : Prop := atom_ok a /\ atom_kind a = KBytes /\ atom_data a = s.

(** [packet] asks for a session on [sp], presenting the byte string [challenge] for the authority [who]: after the 56 bytes of header,
    SMUID.StartSession [ 105, sp, TRUE, 0 = challenge, 3 = who ... *)
Definition presents (packet sp challenge who : bytes) : Prop :=
  exists header a rest, List.length header = 56%nat /\ List.length sp = 8%nat /\ List.length who = 8%nat /\ holds_bytes a challenge
  /\ packet = header ++ [0xF8; 0xA8; 0; 0; 0; 0; 0; 0; 0; 0xFF; 0xA8; 0; 0; 0; 0; 0; 0; 0xFF; 2; 0xF0; 0x81; 105; 0xA8] ++ sp ++ [1; 0xF2; 0] ++ encode a
       ++ [0xF3; 0xF2; 3; 0xA8] ++ who ++ [0xF3; 0xF1] ++ rest.

(** ThisSP.Authenticate [ who, 0 = challenge ... *)
Definition authenticates (packet challenge who : bytes) : Prop :=
  exists header a rest, List.length header = 56%nat /\ List.length who = 8%nat /\ holds_bytes a challenge
  /\ packet = header ++ [0xF8; 0xA8; 0; 0; 0; 0; 0; 0; 0; 1; 0xA8; 0; 0; 0; 6; 0; 0; 0; 0x1C; 0xF0; 0xA8] ++ who ++ [0xF2; 0] ++ encode a ++ [0xF3; 0xF1] ++ rest.

(** The drive grants a session for [who] only to somebody who presents one of [pins]: whenever a command reached it and the answer was an
    acceptance, any StartSession for [who] in that command presented one of them. *)
Definition guards (E : env) (d : device) (who : bytes) (pins : bytes -> Prop) : Prop :=
  forall c h t resp packet sp challenge, exec E d c 1 h = (h ++ t, Ok (Some resp, None)) -> sends t = [packet] -> accepted resp ->
    presents packet sp challenge who -> pins challenge.

(** Opal's limit *)
Definition opal_pins (pins : bytes -> Prop) : Prop := forall p, pins p -> blen p <= 32.
