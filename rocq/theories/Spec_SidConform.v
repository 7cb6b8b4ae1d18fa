(** Specification for C184: a drive whose owner password (the PIN of the authority SID of the Admin SP) is [pin], answering by the book
    (TCG Core 5.2.3.1 StartSession; Opal SSC 2.01: 4.2.1.8 the PIN column is a byte string of at most 32 bytes, 5.1.3.3 Revert on the Admin SP). *)
From Verif Require Import Base Spec_Tcg M_TcgToken M_Buffer M_TcgCommand M_TcgDevice M_TcgSession Spec_TcgCommand Spec_TcgClient Spec_TcgSession Spec_Conform
  M_NvmeLinux Spec_NvmeLinux Spec_NvmeConform M_SgDriver Spec_Sg Spec_SataConform M_WinPass Spec_WinPass Prop_WinPass Spec_WinConform.

(** StartSession on the Admin SP, presenting [challenge] for SID *)
Definition sid_start (com : N) (challenge : bytes) : bytes := frame 0 0 com (start_payload uid_AdminSP (Some challenge) (uid8 uid_SID)).

(** After the history [h]: a StartSession presenting [pin] is granted - with these session numbers -, one presenting another byte string is refused with
    status [st]; in the session granted, a Revert of the Admin SP is executed. *)
Definition checks_sid (E : env) (com : N) (h : hist) (pin : bytes) (hv tv st : N) : Prop :=
  (exists ah at_ more, unsigned_atom ah hv /\ unsigned_atom at_ tv /\ replies E com (sid_start com pin) h (sync_session ah at_ more))
  /\ (forall challenge, wf challenge -> 1 <= blen challenge <= 400 -> challenge <> pin -> replies E com (sid_start com challenge) h (no_result st))
  /\ (forall k, replies E com (frame hv tv com revert_payload) (h ++ exchange com (sid_start com pin) k) (no_result 0)).

(** The same, seen through the ioctls on [fd] (Linux NVMe), ... *)
Definition nvme_checks_sid (K : nv_kern) (fd com : N) (k : nv_hist) (n : nat) (pin : bytes) (hv tv st : N) : Prop :=
  (exists ah at_ more, unsigned_atom ah hv /\ unsigned_atom at_ tv /\ nvme_replies K fd com (sid_start com pin) k n (sync_session ah at_ more))
  /\ (forall challenge, wf challenge -> 1 <= blen challenge <= 400 -> challenge <> pin -> nvme_replies K fd com (sid_start com challenge) k n (no_result st))
  /\ (forall c rs, if_send fd com (sid_start com pin) c -> Forall (if_recv fd com) rs -> nvme_replies K fd com (frame hv tv com revert_payload) (k ++ c :: rs) n (no_result 0)).
(** ... the SG_IO requests (Linux SATA), ... *)
Definition sata_checks_sid (K : kern) (com : N) (k : sg_hist) (n : nat) (pin : bytes) (hv tv st : N) : Prop :=
  (exists ah at_ more, unsigned_atom ah hv /\ unsigned_atom at_ tv /\ sata_replies K com (sid_start com pin) k n (sync_session ah at_ more))
  /\ (forall challenge, wf challenge -> 1 <= blen challenge <= 400 -> challenge <> pin -> sata_replies K com (sid_start com challenge) k n (no_result st))
  /\ (forall c rs, sp_out com (sid_start com pin) c -> Forall (sp_in com) rs -> sata_replies K com (frame hv tv com revert_payload) (k ++ c :: rs) n (no_result 0)).
(** ... and the control requests on the SCSI port [hd] (Windows miniport). *)
Definition mp_checks_sid (S : wsys) (hd com : N) (k : whist) (n : nat) (pin : bytes) (hv tv st : N) : Prop :=
  (exists ah at_ more, unsigned_atom ah hv /\ unsigned_atom at_ tv /\ mp_replies S hd com (sid_start com pin) k n (sync_session ah at_ more))
  /\ (forall challenge, wf challenge -> 1 <= blen challenge <= 400 -> challenge <> pin -> mp_replies S hd com (sid_start com challenge) k n (no_result st))
  /\ (forall c rs, mp_send hd com (sid_start com pin) c -> Forall (mp_recv hd com) rs -> mp_replies S hd com (frame hv tv com revert_payload) (k ++ c :: rs) n (no_result 0)).
