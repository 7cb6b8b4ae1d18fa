(** Specification for C179: what a drive's answers look like by the book (TCG Core 3.2.4.2 method results and status lists, 5.2.3.2 SyncSession,
    5.3.3.6 Get; Interface: Outstanding and MinTransfer). *)
From Verif Require Import Base Spec_Tcg M_TcgToken M_Buffer M_TcgCommand M_TcgDevice M_TcgSession Spec_TcgCommand Spec_TcgClient Spec_TcgSession.

(** An unsigned integer: a tiny atom, or a short atom holding the number big-endian. *)
Definition unsigned_atom (a : atom) (v : N) : Prop := atom_ok a /\ (a = Tiny false v \/ exists b, a = Short false false b /\ be_val b = v).
(** A byte string in any of the encodings *)
Definition bytes_of (a : atom) (s : bytes) : Prop := atom_ok a /\ atom_kind a = KBytes /\ atom_data a = s.

(** End of data and status list *)
Definition status_list (st : N) : list atom := [Ctl 0xF9; Ctl 0xF0; Tiny false st; Tiny false 0; Tiny false 0; Ctl 0xF1].
(** SMUID.SyncSession [ hsn, tsn, ... ] with status success *)
Definition sync_session (h t : atom) (more : list atom) : list atom :=
  [Ctl 0xF8; Short true false [0; 0; 0; 0; 0; 0; 0; 0xFF]; Short true false [0; 0; 0; 0; 0; 0; 0xFF; 3]; Ctl 0xF0; h; t] ++ more ++ [Ctl 0xF1] ++ status_list 0.
(** The empty result with a status *)
Definition no_result (st : N) : list atom := [Ctl 0xF0; Ctl 0xF1] ++ status_list st.
(** The result of reading one cell: [ [ column = cell ] ] *)
Definition one_cell (column : N) (cell : atom) : list atom := [Ctl 0xF0; Ctl 0xF0; Ctl 0xF2; Tiny false column; cell; Ctl 0xF3; Ctl 0xF1; Ctl 0xF1] ++ status_list 0.

(** After the history [h] the drive takes [packet] and, some polls later and within ten seconds, delivers [answer_atoms] - with empty atoms anywhere
    in between - in a packet with its length fields set; the polls before are answered by "more outstanding, nothing to transfer yet". *)
Definition replies (E : env) (com : N) (packet : bytes) (h : hist) (answer_atoms : list atom) : Prop :=
  let start := e_clock E (h ++ [EvNow]) in
  let h1 := h ++ [EvNow; EvSec true false 1 com packet 5] in
  fst (e_sec E h1) = None /\
  exists n atoms, (n < e_fuel E)%nat /\ (forall i, (i < n)%nat -> poll_again E 1 com start h1 i)
  /\ fst (answer E 1 com h1 n) = None /\ elapsed E 1 com start h1 n <= 10000000000
  /\ let buf := received (snd (answer E 1 com h1 n)) in
     ~ wants_poll buf /\ has_payload buf /\ carries buf (stream atoms) /\ Forall atom_ok atoms /\ visible atoms = answer_atoms.

(** The calls of one exchange: the clock is read, [packet] is sent, and [k] receives follow. *)
Definition exchange (com : N) (packet : bytes) (k : nat) : hist := [EvNow; EvSec true false 1 com packet 5] ++ rounds 1 com k.
