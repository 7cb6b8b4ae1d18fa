(** What a TCG answer says about who it is for (Core spec 3.2.3), and drives that differ in nothing else. *)
From Verif Require Import Base M_TcgToken M_TcgDevice.

(** ComPacket: reserved and ComID (bytes 0-7).  Packet: TPer and host session numbers, sequence number, acknowledgement (bytes 20-39).
    Subpacket: reserved and kind (bytes 44-51). *)
Definition addressing (i : nat) : Prop := (i < 8)%nat \/ (20 <= i < 40)%nat \/ (44 <= i < 52)%nat.
Definition same_contents (a b : bytes) : Prop :=
  List.length a = List.length b /\ forall i, ~ addressing i -> nth_error a i = nth_error b i.

(** The same clock, memory and drive, except that the drive's answers may be addressed to anybody. *)
Definition readdressed (E E' : env) : Prop :=
  e_clock E = e_clock E' /\ e_pbkdf2 E = e_pbkdf2 E' /\ e_heap E = e_heap E' /\ e_fuel E = e_fuel E' /\
  forall h, fst (e_sec E h) = fst (e_sec E' h) /\ same_contents (snd (e_sec E h)) (snd (e_sec E' h)).

(** Responses with the same tokens and contents. *)
Definition same_response (a b : option response) : Prop :=
  match a, b with
  | None, None => True
  | Some r, Some r' => r_tokens r = r_tokens r' /\ same_contents (r_buf r) (r_buf r')
  | _, _ => False
  end.

(** Table reads by column name: the arguments of Get as the Enterprise SSC writes them. *)
From Verif Require Import Spec_Tcg Spec_TcgClient Spec_TcgSession.
Definition text_startColumn : bytes := [115; 116; 97; 114; 116; 67; 111; 108; 117; 109; 110].
Definition text_endColumn : bytes := [101; 110; 100; 67; 111; 108; 117; 109; 110].
Definition named_get_payload (table startCol endCol : bytes) : bytes :=
  method_call table mth_Get
    ([0xF0; 0xF2] ++ encode (string_atom text_startColumn) ++ credential_atom startCol ++ [0xF3; 0xF2]
     ++ encode (string_atom text_endColumn) ++ credential_atom endCol ++ [0xF3; 0xF1]).
