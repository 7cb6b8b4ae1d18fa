(** Concrete cases for C159 - C162. *)
From Verif Require Import Base M_Buffer M_Struc M_Layouts M_Strings M_Ata M_TcgDevice M_DriveHandle M_Cdb M_SgDriver M_SgHandle M_NvmeLinux M_LinuxInfo M_LinuxFactory.
From Verif Require Import Spec_LinuxVolume Spec_WinInfo Spec_WinNvme M_WinPass M_WinNvme P_WinNvme M_ErrorText Spec_ErrorText P_ErrorText P_ErrorText2 Prop_ErrorText.

(** An SG device that answers every command with CHECK CONDITION and fixed-format sense data: ILLEGAL REQUEST, invalid field in CDB. *)
Definition exet_sense : bytes := [0x70; 0; 0x05; 0; 0; 0; 0; 10; 0; 0; 0; 0; 0x24; 0x01; 0; 0; 0; 0].
Definition exet_kern (sense : bytes) : kern := fun _ => {| an_errno := 0; an_ret := 0; an_in := []; an_sense := sense; an_status := Some 2 |}.
Definition exet_V (sense : bytes) : drv := sg_drv (exet_kern sense) (fun _ => 0) [] [].
Definition exet_p (k : kind) : dh := {| p_dh := Some (driver_type k); p_info := new_info [] |}.
Definition exet_O (n : N) : bytes := str "errno ".
Definition exet_call : hop := HTask false false tf0 (zeros 8) 3.
(** What the user prints. *)
Definition exet_print (k : kind) (V : drv) (o : hop) : option bytes :=
  let '(h', (_, out)) := hstep V (exet_p k) [] o in match error_in out with Some e => Some (text_after exet_O k h' e) | None => None end.
Example exet_sg_text : exet_print OnSg (exet_V exet_sense) exet_call = Some (str "SCSI status: 02, Sense key: 0x05, ASC: 0x24, ASCQ: 0x01").
Proof. vm_compute. reflexivity. Qed.
(** The hypotheses of C159 hold of it. *)
Example exet_sg_error : let '(_, (_, out)) := hstep (exet_V exet_sense) (exet_p OnSg) [] exet_call in
  exists msg, error_in out = Some (EDparm msg 2 exet_sense) /\ is_byte 2 /\ wf exet_sense.
Proof. eexists. split; [vm_compute; reflexivity|]. split; [reflexivity|]. unfold exet_sense. repeat (apply wf_cons; split; [reflexivity|]). apply wf_nil. Qed.
Example exet_sg_driver : driver_of OnSg (exet_V exet_sense).
Proof. constructor. Qed.

(** Descriptor-format sense data (response code 72h: sense key in byte 1, additional sense code and qualifier in bytes 2 and 3, as SAT
    layers return for ATA pass-through): the message's numbers are not the device's.  The same fault as above is reported with sense key
    4 and no additional sense code. *)
Definition exet_descriptor : bytes := [0x72; 0x05; 0x24; 0x01; 0; 0; 0; 0; 0; 0; 0; 0; 0; 0; 0; 0; 0; 0].
Example exet_descriptor_text : exet_print OnSg (exet_V exet_descriptor) exet_call = Some (str "SCSI status: 02, Sense key: 0x04, ASC: 0x00, ASCQ: 0x00").
Proof. vm_compute. reflexivity. Qed.
Theorem C159_descriptor_sense_refuted :
  ~ (forall sense t, nth 0 sense 0 = 0x72 -> exet_print OnSg (exet_V sense) exet_call = Some t ->
       scsi_report "SCSI status: " "Sense key" 2 (nth 1 sense 0 mod 16) (nth 2 sense 0) (nth 3 sense 0) t).
Proof.
  intros H. specialize (H exet_descriptor _ eq_refl exet_descriptor_text).
  assert (G : scsi_report "SCSI status: " "Sense key" 2 4 0 0 (str "SCSI status: 02, Sense key: 0x04, ASC: 0x00, ASCQ: 0x00")).
  { assert (Bt : forall x y a b, (48 <= x <= 57 \/ 97 <= x <= 102) -> (48 <= y <= 57 \/ 97 <= y <= 102) -> hex_value x = Some a -> hex_value y = Some b -> byte_text (16 * (16 * 0 + a) + b) [x; y]).
    { intros x y a b Hx Hy Vx Vy. split; [reflexivity|]. split; [constructor; [exact Hx|constructor; [exact Hy|constructor]]|]. change [x; y] with (([] ++ [x]) ++ [y]). apply reads_snoc; [apply reads_snoc; [constructor|exact Vx]|exact Vy]. }
    exists (str "02"), (str "04"), (str "00"), (str "00").
    split; [apply (Bt 48 50 0 2); lia || reflexivity|]. split; [apply (Bt 48 52 0 4); lia || reflexivity|]. split; [apply (Bt 48 48 0 0); lia || reflexivity|].
    split; [apply (Bt 48 48 0 0); lia || reflexivity|]. vm_compute. reflexivity. }
  destruct (scsi_report_value _ _ _ _ _ _ _ _ _ _ _ H G) as (_ & K & _). vm_compute in K. discriminate.
Qed.

(** Windows: the ATA driver, a device that reports ERR with DRDY; the SCSI driver with the sense data above. *)
Definition exet_sys (out : bytes) : wsys := {| s_io := fun _ => {| wa_err := 0; wa_out := out; wa_mem := []; wa_ret := 0 |}; s_open := fun _ => inr 7 |}.
Definition exet_addr : waddr := {| ad_data := fun _ => 512; ad_bounce := fun _ => 512 |}.
Definition exet_win (out : bytes) (k : wkind) : drv := win_drv (exet_sys out) exet_addr {| wd_kind := k; wd_handle := 5; wd_scsi := 6; wd_identity := [] |} [].
Example exet_ata_text : exet_print (OnWin KAta) (exet_win (zeros 46 ++ [0x51; 0]) KAta) exet_call = Some (str "ATA Status: 51").
Proof. vm_compute. reflexivity. Qed.
Example exet_scsi_text : exet_print (OnWin KScsi) (exet_win ([0; 0; 2] ++ zeros 57 ++ exet_sense) KScsi) (HSec false false 1 1 (zeros 8) 3)
  = Some (str "SCSI Status: 02, Sense Key: 0x05, ASC: 0x24, ASCQ: 0x01").
Proof. vm_compute. reflexivity. Qed.
(** C160: both verdicts occur.  The storage-query driver refuses every admin command in the library itself; a device error is another matter. *)
Definition exet_discovery (O : N -> bytes) (k : kind) (V : drv) : Z * option bytes :=
  let '(h', (p', r)) := tcg_discovery0 V (exet_p k) [] in (i_support (p_info p'), match r with Err e => Some (text_after O k h' e) | _ => None end).
Example exet_unsupported : exet_discovery exet_O (OnWin KWinNvme) (exet_win ([0; 0; 2] ++ zeros 57 ++ exet_sense) KWinNvme) = ((-1)%Z, Some (str "not supported")).
Proof. vm_compute. reflexivity. Qed.
Example exet_failed : exet_discovery exet_O (OnWin KScsi) (exet_win ([0; 0; 2] ++ zeros 57 ++ exet_sense) KScsi)
  = (0%Z, Some (str "SCSI Status: 02, Sense Key: 0x05, ASC: 0x24, ASCQ: 0x01")).
Proof. vm_compute. reflexivity. Qed.
(** If an operating system's text for some error number were "not supported", the mark would be wrong: the hypothesis is needed.  Here the
    device layer fails with an error number and the drive is marked 0. *)
Definition exet_errno : wsys := {| s_io := fun _ => {| wa_err := 50; wa_out := []; wa_mem := []; wa_ret := 0 |}; s_open := fun _ => inr 7 |}.
Example exet_needs_names : exet_discovery (fun _ => str "not supported") (OnWin KScsi)
    (win_drv exet_errno exet_addr {| wd_kind := KScsi; wd_handle := 5; wd_scsi := 6; wd_identity := [] |} []) = (0%Z, Some (str "not supported")).
Proof. vm_compute. reflexivity. Qed.
(** C161 *)
Example exet_basic : option_map gtext (basic_info_error (fun _ => str "permission denied") (str "/dev/sda")
    {| da_open := None; da_table := TOther; da_readat := fun _ => ([], (0, None)); da_ssz := None; da_size := None; da_geo := Some (errno 13) |})
  = Some (str "/dev/sda HDIO_GETGEO failed: permission denied").
Proof. vm_compute. reflexivity. Qed.
Example exet_links : option_map gtext (id_info_error (fun _ => str "no such file or directory") (inr [str "wwn-0x5000"; str "ata-A_1"; str "ata-B_2"])
    (fun n => if beq n (str "ata-A_1") then inr (str "/dev/sda") else inl (errno 2)))
  = Some (str "EvalSymlinks /dev/disk/by-id/ata-B_2 failed: no such file or directory").
Proof. vm_compute. reflexivity. Qed.
(** C162 *)
Example exet_tcg : error_text exet_O Elsewhere (ETcg 63) = str "tcg error: 63".
Proof. vm_compute. reflexivity. Qed.
Example exet_auth : error_text exet_O Elsewhere (EFmt "authentication failed: %d" 0) = str "authentication failed: 0".
Proof. vm_compute. reflexivity. Qed.
Example exet_log : match winnvme_log_page (exet_sys [48; 0; 0; 0; 0xbe; 0xef; 0; 0]) [] 5 0 2 false 16 with
  | (_, Ok (_, Some e)) => error_text exet_O (WinNvmeLog 0xefbe) e = str "invalid response header: 0x30, 0xefbe"
  | _ => False end.
Proof. vm_compute. reflexivity. Qed.
Example exet_mbr : mbr_error_text exet_O (fun n => (zeros 510 ++ [0x55; 7], (512, None))) = Some (str "invalid MBR Signature [85 7]").
Proof. vm_compute. reflexivity. Qed.
Example exet_mbr_short : mbr_error_text exet_O (fun n => ([], (100, None))) = Some (str "read only 100 bytes of MBR from file instead of expected 512").
Proof. vm_compute. reflexivity. Qed.
