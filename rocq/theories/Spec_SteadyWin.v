(** Vocabulary for comparing runs of the Windows factory on an unchanged machine. *)
From Verif Require Import Base M_TcgDevice M_DriveHandle M_SgDriver M_WinPass M_WinNvme M_WinInfo M_WinFactory M_WinEnum Spec_Sg Prop_WinNvme Spec_Steady.

(** What a device can see of a DeviceIoControl: neither the handle's number nor the address of the program's buffer, which the two direct
    codes carry in bytes 24..31 of the request. *)
Definition io_view : Type := N * (bytes * bytes) * N * target * bytes.
Definition io_seen (c : wcall) : io_view :=
  (wc_code c, if (wc_code c =? 0x4d030) || (wc_code c =? 0x4d014) then (firstn 24 (wc_in c), skipn 32 (wc_in c)) else (wc_in c, []),
   wc_outlen c, wc_target c, wc_mem c).

(** A drive or port opened by its path, or a volume opened by its name. *)
Inductive thing := APath (p : bytes) | AVolume (v : list N).
(** A machine that does not change. *)
Record wmachine := {
  wm_open : thing -> option err;                       (* None: it can be opened *)
  wm_io : thing -> list io_view -> wans;               (* a function of what it was sent through one handle since that was opened *)
  wm_class : option err; wm_devinfo : nat -> bool; wm_iface : N -> N; wm_detail : N -> N -> N * (bytes * N);
  wm_first : err + list N; wm_next : nat -> err + list N;
  wm_names : list N -> option (list N * N); wm_info : list N -> option (list N); wm_type : list N -> N
}.

(** The event [e], done after [h], gives out the handle [hd]. *)
Definition gives (X : xsys) (h : xhist) (e : xev) (hd : N) : Prop :=
  match e with XSys (WOpen _) => x_open X (h ++ [e]) = inr hd | XVolumeOpen _ => x_vopen X (h ++ [e]) = inr hd | _ => False end.
(** [talk X h hd o l]: [hd] was opened for [o], is still open, and the requests [l] were made through it. *)
Inductive talk (X : xsys) : xhist -> N -> thing -> list io_view -> Prop :=
| talk_path h p hd : gives X h (XSys (WOpen p)) hd -> talk X (h ++ [XSys (WOpen p)]) hd (APath p) []
| talk_volume h v hd : gives X h (XVolumeOpen v) hd -> talk X (h ++ [XVolumeOpen v]) hd (AVolume v) []
| talk_io h c o l : talk X h (wc_handle c) o l -> talk X (h ++ [XSys (WIo c)]) (wc_handle c) o (l ++ [io_seen c])
| talk_other h e hd o l : talk X h hd o l -> (forall c, e = XSys (WIo c) -> wc_handle c <> hd) -> e <> XSys (WClose hd) -> ~ gives X h e hd ->
    talk X (h ++ [e]) hd o l.
(** [listing X h d]: the device list [d] was made and is still there; [finding X h f n]: the search [f] is open and was continued [n] times. *)
Inductive listing (X : xsys) : xhist -> N -> Prop :=
| listing_new h d : x_class X (h ++ [XClassDevs]) = inr d -> listing X (h ++ [XClassDevs]) d
| listing_other h e d : listing X h d -> e <> XDestroy d -> e <> XClassDevs -> listing X (h ++ [e]) d.
Inductive finding (X : xsys) : xhist -> N -> nat -> Prop :=
| finding_new h f us : x_first X (h ++ [XFindFirst]) = inr (f, us) -> finding X (h ++ [XFindFirst]) f 0
| finding_next h f n : finding X h f n -> finding X (h ++ [XFindNext f]) f (S n)
| finding_other h e f n : finding X h f n -> e <> XFindNext f -> e <> XFindClose f -> e <> XFindFirst -> finding X (h ++ [e]) f n.

(** The system [X] is the unchanging machine [M]; all numbers it gives out and all addresses are free, except that no two handles open at the
    same time have the same number and that the buffers handed to the drivers while a drive is opened are 512-aligned, as NewAlignedBuffer makes
    them (plat_win/ata_driver.go, plat_win/scsi_driver.go, common/drive_handle.go:176). *)
Record wsteady (X : xsys) (M : wmachine) : Prop := {
  st_open : forall h p, match wm_open M (APath p) with Some e => x_open X (h ++ [XSys (WOpen p)]) = inl e
                        | None => exists hd, x_open X (h ++ [XSys (WOpen p)]) = inr hd /\ forall o l, ~ talk X h hd o l end;
  st_vopen : forall h v, match wm_open M (AVolume v) with Some e => x_vopen X (h ++ [XVolumeOpen v]) = inl e
                         | None => exists hd, x_vopen X (h ++ [XVolumeOpen v]) = inr hd /\ forall o l, ~ talk X h hd o l end;
  st_io : forall h c o l, talk X h (wc_handle c) o l -> x_io X (h ++ [XSys (WIo c)]) = wm_io M o (l ++ [io_seen c]);
  st_aligned : forall h, x_data X h mod 512 = 0;
  st_class : forall h, match wm_class M with Some e => x_class X (h ++ [XClassDevs]) = inl e | None => exists d, x_class X (h ++ [XClassDevs]) = inr d end;
  st_devinfo : forall h d i, listing X h d -> x_devinfo X (h ++ [XDevInfo d i]) = wm_devinfo M i;
  st_iface : forall h d i, listing X h d -> x_iface X (h ++ [XInterface d i]) = wm_iface M i;
  st_detail : forall h d i n, listing X h d -> x_detail X (h ++ [XDetail d i n]) = wm_detail M i n;
  st_first : forall h, match wm_first M with inl e => x_first X (h ++ [XFindFirst]) = inl e | inr us => exists f, x_first X (h ++ [XFindFirst]) = inr (f, us) end;
  st_next : forall h f n, finding X h f n -> x_next X (h ++ [XFindNext f]) = wm_next M n;
  st_names : forall h v, x_names X (h ++ [XPathNames v]) = wm_names M v;
  st_info : forall h v, x_info X (h ++ [XVolumeInfo v]) = wm_info M v;
  st_type : forall h v, x_type X (h ++ [XDriveType v]) = wm_type M v
}.

(** One thing is the same on both machines. *)
Definition same_thing (M M' : wmachine) (o : thing) : Prop :=
  wm_open M o = wm_open M' o /\ (forall l, wm_io M o l = wm_io M' o l).
(** One drive is the same on both machines, and so is every port it names as its own (byte 4 of the SCSI address it gives). *)
Definition same_drive (M M' : wmachine) (path : bytes) : Prop :=
  same_thing M M' (APath path) /\ (forall l, wf (wa_out (wm_io M (APath path) l)))
  /\ forall l address port, delivered (zeros 8) (wa_out (wm_io M (APath path) l)) address -> scsi_port_path (nth 4 address 0) port ->
     same_thing M M' (APath port).

(** Everything a DriveInfo says (common/types.go:59-95). *)
Definition wreport (x : whandle) :=
  (p_info (f_dh x), (f_driving x, f_driver_name x, f_removable x), (f_style x, f_gpt x, f_mbr x, f_parts x), (f_devnum x, f_capacity x),
   (f_vendor x, f_revision x, f_drive_type x)).

(** SetupAPI as documented: the devices [ds], each with one interface whose path is given in UTF-16; a buffer too small for a path (after a
    4-byte header and with a terminating NUL) is refused with ERROR_INSUFFICIENT_BUFFER (122) and the size needed. *)
Fixpoint utf16 (us : list N) : bytes := match us with [] => [] | u :: t => [u mod 256; u / 256] ++ utf16 t end.
Definition detail_size (us : list N) : N := 4 + 2 * (blen us + 1).
Definition detail_of (us : list N) (room : N) : N * (bytes * N) :=
  if room <? detail_size us then (122, ([], detail_size us)) else (0, ([8; 0; 0; 0] ++ utf16 us ++ [0; 0], detail_size us)).
Definition lists (M : wmachine) (ds : list (list N)) : Prop :=
  wm_class M = None /\ N.of_nat (List.length ds) < 2 ^ 32
  /\ (forall i, wm_devinfo M i = (i <? List.length ds)%nat)
  /\ (forall i us, nth_error ds i = Some us -> wm_iface M (N.of_nat i) = 0 /\ (forall room, wm_detail M (N.of_nat i) room = detail_of us room)
      /\ Forall (fun u => 0 < u < 65536) us /\ detail_size us <= 2 ^ 31).
