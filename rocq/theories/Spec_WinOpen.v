(** What came of Level 0 discovery when a drive is opened on Windows, driver by driver. *)
From Verif Require Import Base M_Ata M_TcgDevice M_DriveHandle M_SgDriver M_LinuxFactory M_WinPass M_WinNvme M_WinInfo M_WinFactory
  Spec_Drive Spec_LinuxFactory Spec_Sg Prop_Sg Spec_WinPass Spec_WinNvme Spec_WinInfo Prop_WinPass Prop_WinNvme Prop_WinDrive Spec_WinFactory Spec_LinuxSystem Spec_WinSystem Prop_WinSystem.

(** [level0 S A hd k d g h' o]: the driver of kind [k] asked the drive [d] (opened as [hd]) for its features; the calls took the history
    from [g] to [h'] and brought the answer [o] (None: refused). *)
Inductive level0 (S : wsys) (A : waddr) (hd : N) (d : wdh) (g : whist) : wkind -> whist -> option bytes -> Prop :=
| l0_miniport : forall call page, wc_handle call = wd_scsi d -> wc_code call = 0x4d008 ->
    miniport_carries (security_cmd false 1 1 2048) (zeros (N.to_nat 4096)) (wc_in call) ->
    win_ok (s_io S (g ++ [WIo call])) -> delivered (zeros (N.to_nat 4096)) (skipn 152 (wa_out (s_io S (g ++ [WIo call])))) page ->
    level0 S A hd d g KNvmeWin (g ++ [WIo call]) (Some (firstn (N.to_nat 2048) page))
| l0_miniport_refused : forall call, wc_handle call = wd_scsi d -> wc_code call = 0x4d008 ->
    miniport_carries (security_cmd false 1 1 2048) (zeros (N.to_nat 4096)) (wc_in call) -> ~ win_ok (s_io S (g ++ [WIo call])) ->
    level0 S A hd d g KNvmeWin (g ++ [WIo call]) None
| l0_query : forall cdb h' ans, is_security_cdb false 1 1 (zeros 2048) cdb ->
    scsi_exchange S g hd false cdb (zeros 2048) (ad_data A g) (ad_bounce A g) 3 h' None ans -> level0 S A hd d g KWinNvme h' (Some ans)
| l0_query_refused : forall cdb h' e ans, is_security_cdb false 1 1 (zeros 2048) cdb ->
    scsi_exchange S g hd false cdb (zeros 2048) (ad_data A g) (ad_bounce A g) 3 h' (Some e) ans -> level0 S A hd d g KWinNvme h' None
| l0_scsi : forall cdb h' ans, is_security_cdb false 1 1 (zeros 2048) cdb ->
    scsi_exchange S g hd false cdb (zeros 2048) (ad_data A g) (ad_bounce A g) 3 h' None ans -> level0 S A hd d g KScsi h' (Some ans)
| l0_scsi_trusted : forall cdb1 h1 e1 mid cdb2 h' e2 ans, is_security_cdb false 1 1 (zeros 2048) cdb1 ->
    scsi_exchange S g hd false cdb1 (zeros 2048) (ad_data A g) (ad_bounce A g) 3 h1 (Some e1) mid -> is_trusted_cdb false false 1 1 (zeros 2048) cdb2 ->
    scsi_exchange S h1 hd false cdb2 mid (ad_data A h1) (ad_bounce A h1) 3 h' e2 ans ->
    level0 S A hd d g KScsi h' (match e2 with None => Some ans | Some _ => None end)
| l0_ata : forall c1 rest t p1 o, wc_handle c1 = hd -> wc_code c1 = 0x4d030 -> trusted_receive t -> ata_request false t 2048 3 (wc_in c1) ->
    let a1 := s_io S (g ++ [WIo c1]) in delivered (wc_in c1) (wa_out a1) p1 ->
    let good := win_ok a1 /\ N.testbit (ap_command (apt_decode p1)) 0 = false /\ N.testbit (ap_command (apt_decode p1)) 3 = false in
    (good -> rest = [] /\ exists ans, o = Some ans /\ delivered (zeros 2048) (wa_mem a1) ans) -> (~ good -> o = None) ->
    level0 S A hd d g KAta (g ++ WIo c1 :: rest) o.
(** How a refusal is recorded: the storage-query driver says "no TCG", the others "unknown". *)
Definition recorded_refusal (k : wkind) : info -> Prop :=
  match k with KWinNvme => recorded_unsupported | _ => discovery_recorded None end.

(** ReadBasicInfo cannot read the disk's partition layout (C102). *)
Definition layout_ends (S : wsys) (h : whist) (hd : N) : Prop :=
  let h2 := h ++ [query hd 0x2d1080 [] 12; query hd 0x700a0 [] 32] in
  (exists h', fetch S hd 0x70050 [] h2 h' Panic) \/ (exists h' buf data, fetch S hd 0x70050 [] h2 h' (Ok (buf, data)) /\ unreadable_layout data).
(** A storage descriptor that cannot be read (C103): nothing returned, or a text beyond what was returned. *)
Definition unreadable_descriptor (f : res (bytes * bytes)) : Prop :=
  match f with
  | Ok (buf, data) => data = [] \/ (36 <= List.length buf)%nat /\ exists off, In off [12; 16; 20; 24]%nat /\ blen data < field off 4 buf
  | Err _ => False
  | _ => True
  end.
(** ... and one whose reading would leave the buffer the system asked for (not modelled) *)
Definition short_descriptor (f : res (bytes * bytes)) : Prop :=
  match f with Ok (buf, data) => data <> [] /\ (List.length buf < 36)%nat | _ => False end.
