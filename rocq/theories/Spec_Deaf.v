(** Specification for C186: drives that answer only what they were told, behind Windows' SCSI, ATA and storage-query drivers. *)
From Verif Require Import Base M_Buffer M_Ata M_TcgToken M_TcgCommand M_TcgDevice M_TcgSession M_TcgProgram M_SgDriver M_WinPass Prop_Sg Spec_Sg Spec_WinPass Spec_TcgSession Spec_OneSession Prop_WinPass Prop_WinDrive.

(** A ComPacket whose Length field (four bytes at 16) is zero, or one that breaks off before it: "nothing to send" (TCG SIIS 5.1.5). *)
Definition empty_packet (b : bytes) : Prop := forall i, (16 <= i < 20)%nat -> nth i b 0 = 0.

(** A request to [hd] for 2048 bytes of security protocol 1 from the ComID [com]: SECURITY PROTOCOL IN or TRUSTED RECEIVE in a SCSI pass-through
    (4d014h direct, 4d004h buffered), or TRUSTED RECEIVE in an ATA pass-through (4d030h direct, 4d02ch buffered). *)
Definition asks (hd com : N) (c : wcall) : Prop :=
  wc_handle c = hd /\
  ((wc_code c = 0x4d014 \/ wc_code c = 0x4d004)
     /\ (exists cdb secs ptr, (is_security_cdb false 1 com (zeros 2048) cdb \/ is_trusted_cdb false false 1 com (zeros 2048) cdb)
                              /\ scsi_request false cdb 2048 secs ptr (firstn 96 (wc_in c)))
   \/ (wc_code c = 0x4d030 \/ wc_code c = 0x4d02c)
     /\ (exists t secs, t_command t = 0x5C /\ tf_features t = 1 /\ tf_count t = 4 /\ tf_lba t = 2 ^ 8 * com /\ ata_request false t 2048 secs (firstn 48 (wc_in c)))).
(** A request that gives the device nothing but zeros *)
Definition gives_zeros (c : wcall) : Prop := exists n, payload c = zeros n.

(** The data of an answer: the memory of a direct request, what follows the header in a buffered one *)
Definition data_of (c : wcall) (a : wans) : bytes :=
  if (wc_code c =? 0x4d014) || (wc_code c =? 0x4d030) then wa_mem a
  else skipn (if wc_code c =? 0x4d004 then 96 else 48) (wa_out a).

(** The drive behind [hd], with the calls [k] behind it: as long as it has been given nothing but zeros, a request for its answer brings an empty
    packet - or fails. *)
Definition answers_only_packets (S : wsys) (hd com : N) (k : whist) : Prop :=
  forall cs c, Forall (fun x => gives_zeros x \/ asks hd com x) cs -> asks hd com c ->
  empty_packet (data_of c (s_io S (k ++ map WIo (cs ++ [c])))).

(** The library's calls on a TCG device (Spec_OneSession), and those that need the drive *)
Definition tcg_call (c : tcall) : Prop := library_call c /\ match c with TElse _ => False | _ => True end.
Definition needs_drive (c : tcall) : Prop :=
  match c with TSession _ (SStart _ _ _) | TSession _ (SAuth _ _) | TTable _ _ _ _ | TPassword | TRevert _ _ _ => True | _ => False end.
(** An error was returned; [Fuel]: the polling loop has not ended yet *)
Definition unsuccessful (r : res unit) : Prop := (exists e, r = Err e) \/ r = Fuel.
