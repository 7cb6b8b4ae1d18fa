(** Model of plat_win/nvme_scsi.go, nvme_win_driver.go, windows_nvme_driver.go and their types, and of the four Windows driver
    handles as the driver below a drive handle. *)
From Verif Require Import Base M_Buffer M_Ata M_TcgDevice M_DriveHandle M_Cdb M_SgDriver M_NvmeLinux M_Strings M_WinPass.

(** The size of the data buffers, [4096]byte (nvme_win_types.go:66, windows_nvme_types.go:132). *)
Definition page : nat := N.to_nat 4096.

(** windows.DeviceIoControl with one buffer for input and output.  Result: error, buffer afterwards. *)
Definition win_same (S : wsys) (h : whist) (hd code : N) (b : bytes) : whist * (option err * bytes) :=
  let '(h1, (e, (out, _))) := win_io S h {| wc_handle := hd; wc_code := code; wc_in := b; wc_outlen := blen b; wc_target := TNone; wc_mem := [] |} in
  (h1, (e, out)).

(** nvme_win_driver.go:16-18, utils.go:15 *)
Definition IOCTL_SCSI_MINIPORT : N := 0x4d008.
Definition IOCTL_SCSI_GET_ADDRESS : N := 0x41018.
Definition IOCTL_STORAGE_QUERY_PROPERTY : N := 0x2d1400.

(** nvme_win_types.go:47-67 (SRB_IO_CONTROL, NVME_PASS_THROUGH_IOCTL) and 83-145 (NVMe_COMMAND, laid over NVMeCmd) as laid out in
    memory, with the assignments of nvme_scsi.go:14-23, 34-42 and nvme_win_driver.go:63-79.  The fields have no padding. *)
Definition miniport_mem (opcode nsid cdw10 cdw11 cdw12 cdw13 cdw14 cdw15 : N) (data : bytes) : bytes :=
  le_bytes 4 28 ++ str "NvmeMini" ++ le_bytes 4 40 ++ le_bytes 4 0xe0002000 ++ zeros 4 ++ le_bytes 4 4220
  ++ zeros 24
  ++ le_bytes 1 opcode ++ zeros 3 ++ le_bytes 4 nsid ++ zeros 32
  ++ le_bytes 4 cdw10 ++ le_bytes 4 cdw11 ++ le_bytes 4 cdw12 ++ le_bytes 4 cdw13 ++ le_bytes 4 cdw14 ++ le_bytes 4 cdw15
  ++ zeros 16
  ++ le_bytes 4 2 ++ zeros 4 ++ le_bytes 4 4096 ++ zeros 4 ++ le_bytes 4 4248
  ++ data.

(** nvme_scsi.go:13-61.  [ext]: the DataLen bytes at DataAddr, used when DataAddr is not 0.  Result: error, the caller's command and
    the memory at DataAddr afterwards. *)
Definition miniport_admin (S : wsys) (h : whist) (hd : N) (c : admin_cmd) (ext : bytes) : whist * (option err * (admin_cmd * bytes)) :=
  if 4096 <? c_data_len c then (h, (Some (EMsg "too long data"), (c, ext)))
  else
    let ref := if negb (c_data_addr c =? 0) then ext else c_data c in
    let b := miniport_mem (c_opcode c) (c_nsid c) (c_cdw10 c) (c_cdw11 c) (c_cdw12 c) (c_cdw13 c) (c_cdw14 c) (c_cdw15 c) (fill (zeros page) ref) in
    let '(h1, (e, out)) := win_same S h hd IOCTL_SCSI_MINIPORT b in
    match e with
    | Some x => (h1, (Some x, (c, ext)))
    | None =>
      let new := fill ref (firstn (N.to_nat (c_data_len c)) (slice 152 page out)) in
      (h1, (None, if negb (c_data_addr c =? 0) then (c, new) else (set_c_data c new, ext)))
    end.

(** fmt %d of a byte *)
Definition byte_dec (n : N) : bytes :=
  if n <? 10 then [48 + n] else if n <? 100 then [48 + n / 10; 48 + n mod 10] else [48 + n / 100; 48 + n / 10 mod 10; 48 + n mod 10].
(** nvme_win_driver.go:41-60; scsi_types.go:48-54: SCSI_ADDRESS is 8 bytes, PortNumber the fifth.  bytesReturned is not looked at. *)
Definition get_scsi_path (S : wsys) (h : whist) (hd : N) : whist * res bytes :=
  let '(h1, (e, out)) := win_same S h hd IOCTL_SCSI_GET_ADDRESS (zeros 8) in
  match e with
  | Some x => (h1, Err x)
  | None => (h1, Ok (str "\\.\SCSI" ++ byte_dec (nth 4 out 0) ++ str ":"))
  end.
(** nvme_win_driver.go:62-97 *)
Definition miniport_identity (S : wsys) (h : whist) (hd : N) : whist * res bytes :=
  let '(h1, (e, out)) := win_same S h hd IOCTL_SCSI_MINIPORT (miniport_mem 0x06 0 1 0 0 0 0 0 (zeros page)) in
  match e with Some x => (h1, Err x) | None => (h1, Ok (slice 152 page out)) end.
(** utils.go:30-44; the path has no NUL byte, so UTF16PtrFromString does not fail *)
Definition open_device (S : wsys) (h : whist) (path : bytes) : whist * (err + N) :=
  let h1 := h ++ [WOpen path] in (h1, s_open S h1).
Definition close_handle (h : whist) (hd : N) : whist := h ++ [WClose hd].
(** nvme_win_driver.go:99-127: the second handle and the identity *)
Definition nvmewin_open (S : wsys) (h : whist) (hd : N) : whist * res (N * bytes) :=
  let '(h1, p) := get_scsi_path S h hd in
  match p with
  | Ok path =>
    let '(h2, o) := open_device S h1 path in
    match o with
    | inl x => (h2, Err x)
    | inr sh =>
      let '(h3, i) := miniport_identity S h2 sh in
      match i with
      | Ok identity =>
        if negb (blen identity =? 4096) then (close_handle h3 sh, Err (EFmt "invalid identity size: %d" (blen identity)))
        else (h3, Ok (sh, identity))
      | Err x => (close_handle h3 sh, Err x)
      | Panic => (h3, Panic) | Fuel => (h3, Fuel)
      end
    end
  | Err x => (h1, Err x)
  | Panic => (h1, Panic) | Fuel => (h1, Fuel)
  end.

(** windows_nvme_types.go:104-138 as laid out in memory, without the trailing buffer: 48 bytes *)
Definition protocol_query (property dataType value len : N) : bytes :=
  le_bytes 4 property ++ le_bytes 4 0 ++ le_bytes 4 3 ++ le_bytes 4 dataType ++ le_bytes 4 value ++ zeros 4 ++ le_bytes 4 40 ++ le_bytes 4 len
  ++ zeros 16.
(** windows_nvme_driver.go:35-63 *)
Definition winnvme_identity (S : wsys) (h : whist) (hd : N) : whist * res bytes :=
  let '(h1, (e, out)) := win_same S h hd IOCTL_STORAGE_QUERY_PROPERTY (protocol_query 49 1 1 4096 ++ zeros page) in
  match e with Some x => (h1, Err x) | None => (h1, Ok (slice 48 page out)) end.
(** windows_nvme_driver.go:65-80 *)
Definition winnvme_open (S : wsys) (h : whist) (hd : N) : whist * res bytes :=
  let '(h1, i) := winnvme_identity S h hd in
  match i with
  | Ok identity => if negb (blen identity =? 4096) then (h1, Err (EFmt "invalid identity size: %d" (blen identity))) else (h1, Ok identity)
  | r => (h1, r)
  end.
(** windows_nvme_driver.go:106-149; nsid and rae are not used.  A total size of 48+dataSize <= 0 panics (make, &buffer[0]); for
    -48 < dataSize < 0 the structure is laid over memory outside the buffer, which is not modelled ([Fuel] stands for it). *)
Definition winnvme_log_page (S : wsys) (h : whist) (hd nsid logId : N) (rae : bool) (size : Z) : whist * res (bytes * option err) :=
  if (size <=? -48)%Z then (h, Panic)
  else if (size <? 0)%Z then (h, Fuel)
  else
    let '(h1, (e, out)) := win_same S h hd IOCTL_STORAGE_QUERY_PROPERTY (protocol_query 50 2 logId (to_uint32 size) ++ zeros (Z.to_nat size)) in
    match e with
    | Some x => (h1, Ok ([], Some x))
    | None =>
      let version := le_val (slice 0 4 out) in
      let sz := le_val (slice 4 4 out) in
      if negb (version =? 48) || negb (sz =? 48) then (h1, Ok ([], Some (EFmt "invalid response header: 0x%x, 0x%x" version)))  (* the second number is not rendered *)
      else (h1, Ok (skipn 48 out, None))
    end.

(** nvme_win_types.go:75-81 *)
Definition set_fuse (b01 value : N) : N := N.lor (N.land b01 0xFC) (N.land value 0x03).
Definition get_fuse (b01 : N) : N := N.land b01 0x03.

(** ---- the driver handles below a drive handle ---- *)
(** The driver kinds of drive_factory.go:28-33; [wd_scsi]: NvmeWinDriver's second handle. *)
Inductive wkind := KNvmeWin | KWinNvme | KScsi | KAta.
Record wdh := { wd_kind : wkind; wd_handle : N; wd_scsi : N; wd_identity : bytes }.
(** Addresses of the caller's memory and of the bounce buffer at the time of a call. *)
Record waddr := { ad_data : whist -> N; ad_bounce : whist -> N }.
Definition not_supported : err := EMsg "not supported".
(** Result of one call: error and the contents left in the call's buffer; a panic ends the program. *)
Definition wpt := res (option err * bytes).
(** ata_driver.go:203-209, scsi_driver.go:241-246, nvme_win_driver.go:149-159, windows_nvme_driver.go:102-104, 151-153;
    Close: the first handle only (nvme_win_driver.go:141-143, windows_nvme_driver.go:94-96, scsi_driver.go:233-235, ata_driver.go:195-197).
    CAdmin comes from DriveHandleImpl with DataAddr = 0, so there is no external memory. *)
Definition win_exec (S : wsys) (A : waddr) (d : wdh) (h : whist) (c : dcall) : whist * wpt :=
  let hd := wd_handle d in
  match c, wd_kind d with
  | CSec rw dma proto comId b secs, (KWinNvme | KScsi) => win_security S h hd rw dma proto comId b (ad_data A h) (ad_bounce A h) (Z.of_N secs)
  | CSec _ _ _ _ b _, (KNvmeWin | KAta) => (h, Ok (Some not_supported, b))
  | CTask rw dma t b secs, KScsi => win_task_file S h hd rw dma t b (ad_data A h) (ad_bounce A h) (Z.of_N secs)
  | CTask rw dma t b secs, KAta => win_ata S h hd rw dma t b (ad_data A h) (ad_bounce A h) (Z.of_N secs)
  | CAdmin cmd, KNvmeWin => let '(h1, (e, (cmd', _))) := miniport_admin S h (wd_scsi d) cmd [] in (h1, Ok (e, c_data cmd'))
  | CAdmin cmd, KWinNvme => (h, Ok (Some not_supported, c_data cmd))
  | CClose, _ => (close_handle h hd, Ok (None, []))
  | _, _ => (h, Ok (None, []))
  end.
Definition win_dtype (k : wkind) : dtype :=
  match k with KNvmeWin | KWinNvme => {| is_ata := false; is_nvme := true |} | KScsi | KAta => {| is_ata := true; is_nvme := false |} end.
(** common.DrivingType: 1 = DrivingAtapi, 2 = DrivingNvme *)
Definition win_type (k : wkind) : N := match k with KNvmeWin | KWinNvme => 2 | KScsi | KAta => 1 end.
Definition win_name (k : wkind) : bytes :=
  match k with KNvmeWin => str "NvmeWinDriver" | KWinNvme => str "WindowsNvmeDriver" | KScsi => str "WindowsScsiDriver" | KAta => str "WindowsAtaDriver" end.
(** The events of a sequence of driver calls; a panic is outside the driver interface of M_DriveHandle and represented by (None, []). *)
Definition win_replay (S : wsys) (A : waddr) (d : wdh) (h : whist) (cs : dhist) : whist :=
  fold_left (fun k c => fst (match c with
                             | CLogPage nsid logId rae size =>
                                 match wd_kind d with
                                 | KWinNvme => let '(h1, _) := winnvme_log_page S k (wd_handle d) nsid logId rae size in (h1, Ok (None, []))
                                 | _ => (k, Ok (None, [])) end
                             | _ => win_exec S A d k c end)) cs h.
(** ata_driver.go:183-209, scsi_driver.go:221-246, nvme_win_driver.go:129-159, windows_nvme_driver.go:82-153 *)
Definition win_drv (S : wsys) (A : waddr) (d : wdh) (h : whist) : drv :=
  {| v_io := fun cs => match last_call cs with
                       | Some (before, c) => match snd (win_exec S A d (win_replay S A d h before) c) with Ok x => x | _ => (None, []) end
                       | None => (None, []) end;
     v_tf := fun cs => match last_call cs with Some (_, CTask _ _ t _ _) => t | _ => tf0 end;   (* the caller's task file is not written *)
     v_identity := fun _ => wd_identity d;
     v_log := fun cs => match last_call cs, wd_kind d with
                        | Some (before, CLogPage nsid logId rae size), KWinNvme =>
                            match snd (winnvme_log_page S (win_replay S A d h before) (wd_handle d) nsid logId rae size) with Ok x => x | _ => ([], None) end
                        | _, _ => ([], Some not_supported) end;
     v_type := fun _ => win_type (wd_kind d);
     v_name := fun _ => win_name (wd_kind d) |}.
