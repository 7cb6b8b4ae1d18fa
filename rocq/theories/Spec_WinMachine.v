(** Vocabulary of C153, C154: which system handle an action uses, and what a system handle is open on. *)
From Verif Require Import Base M_TcgDevice M_DriveHandle M_Strings M_WinPass M_WinNvme M_WinFactory M_WinEnum M_WinMachine Spec_Inspect Spec_InspectWin Prop_WinNvme.

(** Programs that only look: EnumDrives, EnumVolumes, OpenByPath, and the looking calls of Spec_Inspect on handles. *)
Definition mlooks (o : mop) : Prop := match o with MOn _ c => inspects c | MOpen _ | MEnum _ | MVolumes _ => True end.
(** A DeviceIoControl that reads from a drive (Spec_InspectWin), or asks about a volume: IOCTL_VOLUME_GET_VOLUME_DISK_EXTENTS,
    IOCTL_DISK_GET_PARTITION_INFO_EX. *)
Definition only_looks (c : wcall) : Prop := win_reads c \/ In (wc_code c) [0x560000; 0x70048].

(** The system handle an action is performed on: DeviceIoControl, CloseHandle. *)
Definition uses_handle (e : xev) : option N := match e with XSys (WIo c) => Some (wc_handle c) | XSys (WClose hd) => Some hd | _ => None end.
(** What CreateFile opened: a device by its path, or a volume by its name. *)
Inductive wobj : Type := OPath (p : bytes) | OVolume (v : list N).
(** The handle that the last action [e] of a history returned, and for what. *)
Definition yields (X : xsys) (h : xhist) (e : xev) (hd : N) (o : wobj) : Prop :=
  match e with
  | XSys (WOpen p) => x_open X h = inr hd /\ o = OPath p
  | XVolumeOpen v => x_vopen X h = inr hd /\ o = OVolume v
  | _ => False
  end.
(** After [h], system handle [hd] is open on [o]: it was obtained at step [k] or later and has not been closed since. *)
Definition open_since (X : xsys) (k : nat) (h : xhist) (hd : N) (o : wobj) : Prop :=
  exists h1 e h2, h = h1 ++ e :: h2 /\ (k <= List.length h1)%nat /\ yields X (h1 ++ [e]) e hd o /\ ~ In (XSys (WClose hd)) h2.
Definition is_open_on (X : xsys) (h : xhist) (hd : N) (o : wobj) : Prop := open_since X 0 h hd o.
(** CreateFile: a handle that is returned was not open. *)
Definition fresh_handles (X : xsys) : Prop :=
  forall h e hd o other, yields X (h ++ [e]) e hd o -> ~ is_open_on X h hd other.
(** In [h] the device with path [p] was asked for its SCSI address (IOCTL_SCSI_GET_ADDRESS, whose answer has the port number in its fifth
    byte), and [port] is the path of the port it named: \\.\SCSIn: *)
Definition names_port (X : xsys) (h : xhist) (p port : bytes) : Prop :=
  exists h1 c h2, h = h1 ++ XSys (WIo c) :: h2 /\ wc_code c = 0x41018 /\ is_open_on X h1 (wc_handle c) (OPath p)
    /\ wa_err (x_io X (h1 ++ [XSys (WIo c)])) = 0 /\ scsi_port_path (nth 4 (fill (zeros 8) (wa_out (x_io X (h1 ++ [XSys (WIo c)])))) 0) port.
(** [o] is the device with path [p], or the port it is attached to. *)
Definition belongs_to (X : xsys) (h : xhist) (p : bytes) (o : wobj) : Prop :=
  o = OPath p \/ exists port, o = OPath port /\ names_port X h p port.
(** What a call begun in state [s] may touch: [h] is the history at that moment, [hd] is open on [o].  Opening and enumerating touch only
    handles the call itself obtained. *)
Definition may_use (X : xsys) (s : mstate) (c : mop) (h : xhist) (hd : N) (o : wobj) : Prop :=
  match c with
  | MOpen p => open_since X (List.length (ms_hist s)) h hd o /\ belongs_to X h p o
  | MEnum _ => open_since X (List.length (ms_hist s)) h hd o /\ exists p, belongs_to X h p o
  | MVolumes _ => open_since X (List.length (ms_hist s)) h hd o /\ exists v, o = OVolume v
  | MOn i _ => exists x, nth_error (ms_handles s) i = Some x /\ is_open_on X h hd o /\ belongs_to X h (mh_path x) o
  end.
(** The paths of a program's handles, in order; the system handles a live drive handle uses. *)
Definition mpaths (s : mstate) : list bytes := map mh_path (ms_handles s).
Definition sys_handles (x : mhandle) : list N :=
  match mh_dev x with Some d => match wd_kind d with KNvmeWin => [wd_handle d; wd_scsi d] | _ => [wd_handle d] end | None => [] end.
