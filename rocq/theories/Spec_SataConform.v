(** Specification for C181: as Spec_NvmeConform, for a SATA drive behind the SCSI generic driver: SECURITY PROTOCOL OUT and IN (SPC-4 6.29, 6.30). *)
From Verif Require Import Base Spec_Tcg M_TcgToken M_Buffer M_TcgCommand M_TcgDevice M_TcgSession M_Cdb M_SgDriver Spec_Sg Spec_TcgCommand Spec_TcgClient Spec_TcgSession Spec_Conform
  Spec_NvmeConform.

(** SECURITY PROTOCOL OUT of [packet] and SECURITY PROTOCOL IN of 2048 bytes, protocol 1, to [com] *)
Definition sp_out (com : N) (packet : bytes) (c : sg_call) : Prop :=
  security_decode (sg_cdb c) = Some {| sc_out := true; sc_protocol := 1; sc_specific := com; sc_inc512 := false; sc_length := blen packet |} /\ sg_mem c = packet.
Definition sp_in (com : N) (c : sg_call) : Prop :=
  security_decode (sg_cdb c) = Some {| sc_out := false; sc_protocol := 1; sc_specific := com; sc_inc512 := false; sc_length := 2048 |}.

(** With the requests [k] behind it, the drive takes [packet], answers [n] receives by "more outstanding, nothing to transfer yet", and then delivers [atoms] -
    with empty atoms anywhere in between - in a packet with its length fields set. *)
Definition sata_replies (K : kern) (com : N) (packet : bytes) (k : sg_hist) (n : nat) (atoms : list atom) : Prop :=
  forall c rs, sp_out com packet c -> Forall (sp_in com) rs -> (List.length rs <= S n)%nat ->
  forall buf, delivered (zeros 2048) (an_in (K (k ++ c :: rs))) buf ->
     ((1 <= List.length rs <= n)%nat -> wants_poll buf)
     /\ (List.length rs = S n -> ~ wants_poll buf /\ has_payload buf /\ exists sent, carries buf (stream sent) /\ Forall atom_ok sent /\ visible sent = atoms).

(** It has a PSID, as in Spec_NvmeConform. *)
Definition sata_checks_psid (K : kern) (com : N) (k : sg_hist) (n : nat) (psid : bytes) (hv tv st : N) : Prop :=
  (exists ah at_ more, unsigned_atom ah hv /\ unsigned_atom at_ tv /\ sata_replies K com (psid_start com psid) k n (sync_session ah at_ more))
  /\ (forall challenge, wf challenge -> 1 <= blen challenge <= 400 -> challenge <> psid -> sata_replies K com (psid_start com challenge) k n (no_result st))
  /\ (forall c rs, sp_out com (psid_start com psid) c -> Forall (sp_in com) rs ->
        sata_replies K com (frame hv tv com revert_payload) (k ++ c :: rs) n (no_result 0)).

(** It has an MSID. *)
Definition sata_shows_msid (K : kern) (com : N) (k : sg_hist) (n : nat) (msid : bytes) : Prop :=
  let start := frame 0 0 com (start_payload uid_AdminSP None []) in
  exists ah hv at_ tv more cell, unsigned_atom ah hv /\ unsigned_atom at_ tv /\ bytes_of cell msid
  /\ sata_replies K com start k n (sync_session ah at_ more)
  /\ forall c rs, sp_out com start c -> Forall (sp_in com) rs ->
       sata_replies K com (frame hv tv com (get_payload (uid8 uid_C_PIN_MSID) 3 3)) (k ++ c :: rs) n (one_cell 3 cell).
