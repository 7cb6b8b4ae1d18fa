(** Where the identification of a Windows drive comes from, driver by driver. *)
From Verif Require Import Base M_Ata M_TcgDevice M_DriveHandle M_SgDriver M_Strings M_LinuxFactory M_WinPass M_WinNvme M_WinInfo M_WinFactory
  Spec_Drive Spec_LinuxFactory Spec_Sg Prop_Sg Spec_WinPass Spec_WinNvme Spec_WinInfo Prop_WinPass Prop_WinNvme Prop_WinDrive Spec_WinFactory Spec_LinuxSystem Spec_WinSystem Prop_WinSystem.

(** [reads_identity S A hd h k sh g id]: the driver of kind [k], asked for the device opened as [hd] after [h], read [id] by requests that
    took the history to [g]; later commands go to [sh] for the miniport driver. *)
Inductive reads_identity (S : wsys) (A : waddr) (hd : N) (h : whist) : wkind -> N -> whist -> bytes -> Prop :=
| id_miniport : forall c1 path c2 addr sh id,
    (* the SCSI address of the device names the port *)
    wc_handle c1 = hd -> wc_code c1 = 0x41018 -> win_ok (s_io S (h ++ [WIo c1])) -> delivered (zeros 8) (wa_out (s_io S (h ++ [WIo c1]))) addr ->
    scsi_port_path (reg 4 addr) path -> s_open S (h ++ [WIo c1; WOpen path]) = inr sh ->
    (* IDENTIFY controller, sent to the port *)
    wc_handle c2 = sh -> wc_code c2 = 0x4d008 -> miniport_carries identify_controller (zeros (N.to_nat 4096)) (wc_in c2) ->
    let a := s_io S (h ++ [WIo c1; WOpen path; WIo c2]) in win_ok a -> delivered (zeros (N.to_nat 4096)) (skipn 152 (wa_out a)) id ->
    reads_identity S A hd h KNvmeWin sh (h ++ [WIo c1; WOpen path; WIo c2]) id
| id_query : forall c id, wc_handle c = hd -> wc_code c = 0x2d1400 ->
    (* adapter protocol specific property: NVMe, identify, CNS 1 *)
    pquery_decode (wc_in c) = {| pq_property := 49; pq_type := 0; pq_protocol := 3; pq_data_type := 1; pq_value := 1;
                                 pq_offset := 40; pq_length := 4096; pq_subs := [0; 0; 0; 0; 0] |} ->
    win_ok (s_io S (h ++ [WIo c])) -> delivered (zeros (N.to_nat 4096)) (skipn 48 (wa_out (s_io S (h ++ [WIo c])))) id ->
    reads_identity S A hd h KWinNvme 0 (h ++ [WIo c]) id
| id_scsi : forall g id, scsi_exchange S h hd false [0xA1; 0; 0; 0; 0; 0; 0; 0; 0; 0xEC; 0; 0] (zeros 512) (ad_data A h) (ad_bounce A h) 3 g None id ->
    reads_identity S A hd h KScsi 0 g id
| id_ata : forall c p id, wc_handle c = hd -> wc_code c = 0x4d030 -> ata_request false win_identify_tf 512 10 (wc_in c) -> win_ok (s_io S (h ++ [WIo c])) ->
    delivered (wc_in c) (wa_out (s_io S (h ++ [WIo c]))) p ->
    N.testbit (ap_command (apt_decode p)) 0 = false -> N.testbit (ap_command (apt_decode p)) 3 = false ->
    delivered (zeros 512) (wa_mem (s_io S (h ++ [WIo c]))) id -> reads_identity S A hd h KAta 0 (h ++ [WIo c]) id.
Definition texts_of_identity (k : wkind) (id : bytes) (i : info) : Prop :=
  match k with KNvmeWin | KWinNvme => nvme_texts id i | KScsi | KAta => ata_texts id i end.
Definition name_of (k : wkind) : bytes :=
  match k with KNvmeWin => str "NvmeWinDriver" | KWinNvme => str "WindowsNvmeDriver" | KScsi => str "WindowsScsiDriver" | KAta => str "WindowsAtaDriver" end.
(** the buffers of these requests are aligned (internal/aligned_buffer.go:26-48) and lie in a 64-bit address space *)
Definition aligned_addr (A : waddr) : Prop := forall k, ad_data A k mod 512 = 0 /\ ad_data A k < 2 ^ 64 /\ ad_bounce A k < 2 ^ 64.
