(** Specification for C182: as Spec_NvmeConform, for an NVMe drive behind a Windows miniport driver (IOCTL_SCSI_MINIPORT, NVME_PASS_THROUGH). *)
From Verif Require Import Base M_Buffer M_TcgToken M_TcgCommand M_TcgDevice M_TcgSession M_WinPass Spec_Sg Spec_WinPass Prop_WinPass
  Spec_Tcg Spec_TcgCommand Spec_TcgClient Spec_TcgSession Spec_TcgOnDrive Prop_TcgOnWin Spec_Conform Spec_NvmeConform.

(** Security Send of [packet] and Security Receive of 2048 bytes, protocol 1, to [com], on the SCSI port [hd] *)
Definition mp_send (hd com : N) (packet : bytes) (e : wev) : Prop := miniport_security hd {| x_out := true; x_protocol := 1; x_comid := com; x_data := packet |} e.
Definition mp_recv (hd com : N) (e : wev) : Prop := miniport_security hd {| x_out := false; x_protocol := 1; x_comid := com; x_data := zeros 2048 |} e.

(** With the calls [k] behind it, the system takes [packet], answers [n] receives by "more outstanding, nothing to transfer yet", and then delivers [atoms] -
    with empty atoms anywhere in between - in a packet with its length fields set, in the first 2048 bytes of the page. *)
Definition mp_replies (S : wsys) (hd com : N) (packet : bytes) (k : whist) (n : nat) (atoms : list atom) : Prop :=
  forall c rs, mp_send hd com packet c -> Forall (mp_recv hd com) rs -> (List.length rs <= Datatypes.S n)%nat ->
  win_ok (s_io S (k ++ c :: rs))
  /\ forall page, delivered (zeros (N.to_nat 4096)) (skipn 152 (wa_out (s_io S (k ++ c :: rs)))) page ->
     let buf := firstn (N.to_nat 2048) page in
     ((1 <= List.length rs <= n)%nat -> wants_poll buf)
     /\ (List.length rs = Datatypes.S n -> ~ wants_poll buf /\ has_payload buf /\ exists sent, carries buf (stream sent) /\ Forall atom_ok sent /\ visible sent = atoms).

(** It has a PSID, as in Spec_NvmeConform. *)
Definition mp_checks_psid (S : wsys) (hd com : N) (k : whist) (n : nat) (psid : bytes) (hv tv st : N) : Prop :=
  (exists ah at_ more, unsigned_atom ah hv /\ unsigned_atom at_ tv /\ mp_replies S hd com (psid_start com psid) k n (sync_session ah at_ more))
  /\ (forall challenge, wf challenge -> 1 <= blen challenge <= 400 -> challenge <> psid -> mp_replies S hd com (psid_start com challenge) k n (no_result st))
  /\ (forall c rs, mp_send hd com (psid_start com psid) c -> Forall (mp_recv hd com) rs ->
        mp_replies S hd com (frame hv tv com revert_payload) (k ++ c :: rs) n (no_result 0)).

(** It has an MSID. *)
Definition mp_shows_msid (S : wsys) (hd com : N) (k : whist) (n : nat) (msid : bytes) : Prop :=
  let start := frame 0 0 com (start_payload uid_AdminSP None []) in
  exists ah hv at_ tv more cell, unsigned_atom ah hv /\ unsigned_atom at_ tv /\ bytes_of cell msid
  /\ mp_replies S hd com start k n (sync_session ah at_ more)
  /\ forall c rs, mp_send hd com start c -> Forall (mp_recv hd com) rs ->
       mp_replies S hd com (frame hv tv com (get_payload (uid8 uid_C_PIN_MSID) 3 3)) (k ++ c :: rs) n (one_cell 3 cell).
