(** Vocabulary for enumerating drives and volumes on Windows.  From the model: the event and answer types, the records of the public API,
    and OpenByPath after a history ([x_open_by_path]; what that does is C105). *)
From Verif Require Import Base M_DriveHandle M_Strings Spec_LinuxVolume M_WinPass M_WinNvme M_WinInfo M_WinFactory M_WinEnum Spec_Sg Spec_WinPass Spec_WinNvme Spec_WinInfo.

(** The system hands out bytes and 32-bit sizes. *)
Definition sane (X : xsys) : Prop :=
  (forall h, wf (wa_out (x_io X h))) /\ (forall h, snd (snd (x_detail X h)) < 2 ^ 32).
Definition u32_minus (a b : N) : N := (a + 2 ^ 32 - b) mod 2 ^ 32.

(** ---- a device's path ---- *)
(** One SetupDiGetDeviceInterfaceDetailW call: errno, required size, and what [buf] (whose size field is 8) holds afterwards. *)
Definition detail (X : xsys) (d j : N) (h : xhist) (buf : bytes) (e size : N) (h' : xhist) (buf' : bytes) : Prop :=
  h' = h ++ [XDetail d j (blen buf)] /\ exists out, x_detail X h' = (e, (out, size)) /\ delivered ([8; 0; 0; 0] ++ skipn 4 buf) out buf'.
(** The UTF-16 text at offset 4: up to the first NUL, at most [n] units. *)
Definition path_text (X : xsys) (buf : bytes) (n : N) (p : bytes) : Prop :=
  exists us, p = x_text X us /\
  (forall k u, nth_error us k = Some u -> u = field (4 + 2 * k) 2 buf /\ u <> 0 /\ (4 + 2 * k + 2 <= List.length buf)%nat) /\
  (N.of_nat (List.length us) = n \/
   N.of_nat (List.length us) < n /\ (4 + 2 * List.length us + 2 <= List.length buf)%nat /\ field (4 + 2 * List.length us) 2 buf = 0).
(** [n] is the size of the second buffer: the least positive multiple of 1024 that holds [size]; it must be a uint32. *)
Definition rounded_up (size n : N) : Prop := n mod 1024 = 0 /\ size <= n < size + 1024 /\ 0 < n < 2 ^ 32.
(** Asking for the path of interface [j]: one call, and a second one with a larger buffer after ERROR_INSUFFICIENT_BUFFER (122). *)
Inductive asked (X : xsys) (d j : N) (h : xhist) (buf : bytes) : N -> N -> xhist -> bytes -> Prop :=
| asked_once : forall e size h1 b1, detail X d j h buf e size h1 b1 -> e <> 122 -> asked X d j h buf e size h1 b1
| asked_twice : forall size n h1 b1 e2 size2 h2 b2, detail X d j h buf 122 size h1 b1 -> rounded_up size n ->
    detail X d j h1 (zeros (N.to_nat n)) e2 size2 h2 b2 -> asked X d j h buf e2 size2 h2 b2.

(** ---- enumerating devices ---- *)
(** What came of device number [i]: its drive if it could be opened.  [buf] is the buffer for paths. *)
Inductive device (X : xsys) (d : N) (i : nat) (h : xhist) (buf : bytes) : xhist -> bytes -> option whandle -> Prop :=
| no_interface : let h1 := h ++ [XDevInfo d i; XInterface d (N.of_nat i mod 2 ^ 32)] in
    x_devinfo X (h ++ [XDevInfo d i]) = true -> x_iface X h1 = 259 -> device X d i h buf h1 buf None
| no_path : forall e size h2 b2, let h1 := h ++ [XDevInfo d i; XInterface d (N.of_nat i mod 2 ^ 32)] in
    x_devinfo X (h ++ [XDevInfo d i]) = true -> x_iface X h1 = 0 -> asked X d (N.of_nat i mod 2 ^ 32) h1 buf e size h2 b2 -> e <> 0 ->
    device X d i h buf h2 b2 None
| tried : forall size h2 b2 p h3 r, let h1 := h ++ [XDevInfo d i; XInterface d (N.of_nat i mod 2 ^ 32)] in
    x_devinfo X (h ++ [XDevInfo d i]) = true -> x_iface X h1 = 0 -> asked X d (N.of_nat i mod 2 ^ 32) h1 buf 0 size h2 b2 ->
    path_text X b2 (u32_minus size 4) p -> x_open_by_path X h2 p = (h3, r) ->
    forall o, match r with Ok x => o = Some x | Err _ => o = None | _ => False end -> device X d i h buf h3 b2 o.
(** Devices [i], [i+1], ... up to [n] (exclusive), and the drives among them that could be opened, in order. *)
Inductive devices (X : xsys) (d : N) : nat -> xhist -> bytes -> nat -> xhist -> bytes -> list whandle -> Prop :=
| devices_none : forall i h buf, devices X d i h buf i h buf []
| devices_one : forall i h buf h1 b1 o n h2 b2 xs, device X d i h buf h1 b1 o -> devices X d (S i) h1 b1 n h2 b2 xs ->
    devices X d i h buf n h2 b2 (match o with Some x => x :: xs | None => xs end).
(** The enumeration ends before device [n]: there is none, or its interfaces cannot be enumerated. *)
Definition no_more (X : xsys) (d : N) (n : nat) (h h' : xhist) : Prop :=
  (x_devinfo X (h ++ [XDevInfo d n]) = false /\ h' = h ++ [XDevInfo d n]) \/
  (x_devinfo X (h ++ [XDevInfo d n]) = true /\ h' = h ++ [XDevInfo d n; XInterface d (N.of_nat n mod 2 ^ 32)] /\
   x_iface X h' <> 0 /\ x_iface X h' <> 259).
(** Device [n] makes EnumDrives panic: a required size of 0 (or above 2^32 - 1024), or opening the drive does. *)
Definition enum_panics (X : xsys) (d : N) (n : nat) (h : xhist) (buf : bytes) (h' : xhist) : Prop :=
  let j := N.of_nat n mod 2 ^ 32 in
  let h1 := h ++ [XDevInfo d n; XInterface d j] in
  x_devinfo X (h ++ [XDevInfo d n]) = true /\ x_iface X h1 = 0 /\
  ((exists size b1, detail X d j h1 buf 122 size h' b1 /\ (size = 0 \/ 2 ^ 32 - 1024 < size)) \/
   (exists size h2 b2 p, asked X d j h1 buf 0 size h2 b2 /\ path_text X b2 (u32_minus size 4) p /\ x_open_by_path X h2 p = (h', Panic))).
(** closing drives, last opened first; a drive without driver closes nothing (C106) *)
Definition closings (xs : list whandle) : xhist :=
  flat_map (fun x => match f_drv x with Some (w, _, _) => [XSys (WClose (wd_handle w))] | None => [] end) (rev xs).

(** ---- volumes ---- *)
(** [v]: the text in [us] before the first NUL, all of it if there is none. *)
Definition ztext (us v : list N) : Prop := ~ In 0 v /\ (us = v \/ exists r, us = v ++ 0 :: r).
(** [v1] is [v] without its trailing backslashes. *)
Definition unslashed (v v1 : list N) : Prop := exists k, v = v1 ++ repeat 92 k /\ forall r, v1 <> r ++ [92].
(** The mount points reported: the first name in the list, if any. *)
Definition first_name (X : xsys) (us : list N) (ms : list bytes) : Prop :=
  exists s, ztext (firstn (N.to_nat 4096) us) s /\ ((s = [] /\ ms = []) \/ (s <> [] /\ ms = [x_text X s])).
Definition endless (us : list N) : Prop := (N.to_nat 4096 <= List.length us)%nat /\ ~ In 0 (firstn (N.to_nat 4096) us).
(** VOLUME_DISK_EXTENTS: the count at 0, 24 bytes each from 8 *)
Definition extents_of (data : bytes) (es : list extent) : Prop :=
  N.of_nat (List.length es) = field 0 4 data /\
  forall i e, nth_error es i = Some e -> (8 + 24 * i + 24 <= List.length data)%nat /\
    ex_disk e = field (8 + 24 * i) 4 data /\ ex_start e = field (16 + 24 * i) 8 data /\ ex_size e = field (24 + 24 * i) 8 data.
(** The partition of a volume whose first extent is [e]; [b] is the PARTITION_INFORMATION_EX. *)
Definition partition_of (e : extent) (b : bytes) (p : wpart) : Prop :=
  wp_disk p = ex_disk e /\ wp_start p = ex_start e /\ wp_size p = ex_size e /\ wp_entry p = b /\
  (field 0 4 b = 1 -> wp_mbr p = None /\ exists t i, wp_gpt p = Some (t, i) /\ braced_guid (slice 32 16 b) t /\ braced_guid (slice 48 16 b) i) /\
  (field 0 4 b = 0 -> wp_gpt p = None /\ exists boot, wp_mbr p = Some (reg 32 b, boot) /\ (boot = true <-> reg 33 b <> 0)) /\
  (field 0 4 b <> 0 -> field 0 4 b <> 1 -> wp_gpt p = None /\ wp_mbr p = None).
Definition ioctl (hd code n : N) : xev :=
  XSys (WIo {| wc_handle := hd; wc_code := code; wc_in := []; wc_outlen := n; wc_target := TNone; wc_mem := [] |}).
Definition extents_query (hd : N) : xev := ioctl hd 0x560000 4096.       (* IOCTL_VOLUME_GET_VOLUME_DISK_EXTENTS *)
Definition partition_query (hd : N) : xev := ioctl hd 0x70048 144.       (* IOCTL_DISK_GET_PARTITION_INFO_EX *)

(** Reporting the volume whose name is in [name]; [fs0] and [data0] are what the two buffers hold.  [hs]: the handles opened (0 or 1). *)
Record volume (X : xsys) (h : xhist) (name : list N) (fs0 : list N) (data0 : bytes)
              (h' : xhist) (hs : list N) (it : wvolume) (fs1 : list N) (data1 : bytes) : Prop := {
  vo_all : exists v v1, ztext name v /\ unslashed v v1 /\
    let h1 := h ++ [XPathNames v] in let h2 := h1 ++ [XVolumeInfo v] in let h3 := h2 ++ [XDriveType v] in let h4 := h3 ++ [XVolumeOpen v1] in
    wv_path it = x_text X v1 /\
    match x_names X h1 with
    | Some (us, len) => (len = 0 -> wv_mounts it = []) /\ (0 < len -> first_name X us (wv_mounts it) /\ ~ endless us)
    | None => wv_mounts it = []
    end /\
    (exists fs, match x_info X h2 with
                | Some us => delivered fs0 us fs /\ exists s, ztext fs s /\ wv_fs it = x_text X s
                | None => fs = fs0 /\ wv_fs it = []
                end /\ fs1 = match x_vopen X h4 with inl _ => fs | inr _ => zeros 128 end) /\
    wv_type it = x_type X h3 /\
    match x_vopen X h4 with
    | inl _ => h' = h4 /\ hs = [] /\ wv_extents it = [] /\ wv_part it = None /\ data1 = data0
    | inr hd => hs = [hd] /\
      let h5 := h4 ++ [extents_query hd] in
      delivered data0 (wa_out (x_io X h5)) data1 /\
      (wa_err (x_io X h5) <> 0 -> h' = h5 /\ wv_extents it = [] /\ wv_part it = None) /\
      (wa_err (x_io X h5) = 0 -> extents_of data1 (wv_extents it) /\
         match wv_extents it with
         | [] => h' = h5 /\ wv_part it = None
         | e :: _ => h' = h5 ++ [partition_query hd] /\
           (wa_err (x_io X h') <> 0 -> wv_part it = None) /\
           (wa_err (x_io X h') = 0 -> exists b p, delivered (zeros 144) (wa_out (x_io X h')) b /\ wv_part it = Some p /\ partition_of e b p)
         end)
    end
}.
(** ... or it panics: the mount points do not end within the buffer, or more extents are announced than the buffer has room for. *)
Definition volume_panics (X : xsys) (h : xhist) (name : list N) (data0 : bytes) (h' : xhist) (hs : list N) : Prop :=
  exists v v1, ztext name v /\ unslashed v v1 /\
    let h1 := h ++ [XPathNames v] in let h2 := h1 ++ [XVolumeInfo v] in let h3 := h2 ++ [XDriveType v] in let h4 := h3 ++ [XVolumeOpen v1] in
    (exists us len, x_names X h1 = Some (us, len) /\ 0 < len /\ endless us /\ h' = h1 /\ hs = []) \/
    (exists hd data1, x_vopen X h4 = inr hd /\ hs = [hd] /\ h' = h4 ++ [extents_query hd] /\ wa_err (x_io X h') = 0 /\
       delivered data0 (wa_out (x_io X h')) data1 /\ 172 <= field 0 4 data1).
(** A volume name as delivered into a cleared buffer of 320 units. *)
Definition name_buffer (us name : list N) : Prop := delivered (zeros 320) us name.
(** The volumes from the one named in [name] on, each followed by a FindNextVolume; [h'] is after the last volume reported. *)
Inductive volumes (X : xsys) (f : N) : xhist -> list N -> list N -> bytes -> xhist -> list N -> list wvolume -> Prop :=
| volumes_last : forall h name fs0 data0 h1 hs it fs1 data1 e,
    volume X h name fs0 data0 h1 hs it fs1 data1 -> x_next X (h1 ++ [XFindNext f]) = inl e ->
    volumes X f h name fs0 data0 (h1 ++ [XFindNext f]) hs [it]
| volumes_more : forall h name fs0 data0 h1 hs it fs1 data1 us name1 h2 hs2 its,
    volume X h name fs0 data0 h1 hs it fs1 data1 -> x_next X (h1 ++ [XFindNext f]) = inr us -> name_buffer us name1 ->
    volumes X f (h1 ++ [XFindNext f]) name1 fs1 data1 h2 hs2 its ->
    volumes X f h name fs0 data0 h2 (hs ++ hs2) (it :: its).
(** ... or some volume panics, with handles [hs] open. *)
Inductive volumes_panic (X : xsys) (f : N) : xhist -> list N -> list N -> bytes -> xhist -> list N -> Prop :=
| panic_now : forall h name fs0 data0 h1 hs, volume_panics X h name data0 h1 hs -> volumes_panic X f h name fs0 data0 h1 hs
| panic_later : forall h name fs0 data0 h1 hs it fs1 data1 us name1 h2 hs2,
    volume X h name fs0 data0 h1 hs it fs1 data1 -> x_next X (h1 ++ [XFindNext f]) = inr us -> name_buffer us name1 ->
    volumes_panic X f (h1 ++ [XFindNext f]) name1 fs1 data1 h2 hs2 ->
    volumes_panic X f h name fs0 data0 h2 (hs ++ hs2).
(** closing volume handles, last opened first *)
Definition volume_closings (hs : list N) : xhist := map (fun hd => XSys (WClose hd)) (rev hs).

(** ---- opening by volume ---- *)
Definition device_of_disk (n : N) (p : bytes) : Prop :=
  exists ds, p = str "\\.\PhysicalDrive" ++ ds /\ numeral ds /\ decimal ds = n.
(** equal but for one trailing backslash on either side *)
Definition without_slash (s t : bytes) : Prop := s = t ++ [92] \/ (s = t /\ forall r, s <> r ++ [92]).
Definition same_volume (a b : bytes) : Prop := exists t, without_slash a t /\ without_slash b t.
(** [out] is obtained from [l] by keeping, in order, exactly the elements with [P]. *)
Inductive picked {A} (P : A -> Prop) : list A -> list A -> Prop :=
| picked_nil : picked P [] []
| picked_yes : forall x l out, P x -> picked P l out -> picked P (x :: l) (x :: out)
| picked_no : forall x l out, ~ P x -> picked P l out -> picked P (x :: l) out.
(** Volume handles opened along the events [t] after history [h], and handles closed in [t]; oldest first. *)
Fixpoint opened_along (X : xsys) (h : xhist) (t : xhist) : list N :=
  match t with
  | [] => []
  | e :: t' => (match e with XVolumeOpen _ => match x_vopen X (h ++ [e]) with inr hd => [hd] | inl _ => [] end | _ => [] end) ++ opened_along X (h ++ [e]) t'
  end.
Definition closed_in (t : xhist) : list N := flat_map (fun e => match e with XSys (WClose hd) => [hd] | _ => [] end) t.
(** What the caller sees of a volume. *)
Definition shows (v : wvolume) (i : wvolume_info) : Prop :=
  wi_path i = wv_path v /\ wi_fs i = wv_fs v /\ wi_mounts i = wv_mounts v /\ wi_type i = wv_type v /\
  wi_parts i = match wv_part v with Some p => [p] | None => [] end.
(** [v] starts on disk number [n]. *)
Definition starts_on (n : Z) (v : wvolume) : Prop := exists e es, wv_extents v = e :: es /\ Z.of_N (ex_disk e) = n.
(** STORAGE_BUS_TYPE (ntddstor.h) *)
Definition bus_called (t : N) : string :=
  match t with
  | 0 => "Unknown" | 1 => "Scsi" | 2 => "Atapi" | 3 => "Ata" | 4 => "1394" | 5 => "Ssa" | 6 => "Fibre" | 7 => "Usb" | 8 => "RAID" | 9 => "iScsi"
  | 10 => "Sas" | 11 => "Sata" | 12 => "Sd" | 13 => "Mmc" | 14 => "Virtual" | 15 => "FileBackedVirtual" | 16 => "Spaces" | 17 => "Nvme"
  | 18 => "SCM" | 19 => "Ufs" | _ => ""
  end%string.
