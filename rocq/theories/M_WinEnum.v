(** Model of plat_win/drive_factory.go:116-183 (EnumDrives), setupapi.go and volume.go. *)
From Verif Require Import Base M_TcgDevice M_DriveHandle M_SgDriver M_Strings M_WinPass M_WinNvme M_WinInfo M_WinFactory.

(** What these functions do to the system, oldest first.  UTF-16 strings are passed as their units before the terminator. *)
Inductive xev :=
| XSys (e : wev)                      (* what M_WinFactory does: CreateFile, DeviceIoControl, CloseHandle *)
| XClassDevs                          (* SetupDiGetClassDevsEx *)
| XDevInfo (d : N) (i : nat)          (* SetupDiEnumDeviceInfo *)
| XInterface (d : N) (i : N)          (* SetupDiEnumDeviceInterfaces *)
| XDetail (d : N) (i : N) (size : N)  (* SetupDiGetDeviceInterfaceDetailW for the interface found last, buffer size *)
| XDestroy (d : N)                    (* SetupDiDestroyDeviceInfoList *)
| XErrorMode (m : N)                  (* SetErrorMode *)
| XFindFirst | XFindNext (f : N) | XFindClose (f : N)          (* FindFirstVolume, FindNextVolume, FindVolumeClose *)
| XPathNames (v : list N)             (* GetVolumePathNamesForVolumeName *)
| XVolumeInfo (v : list N)            (* GetVolumeInformation *)
| XDriveType (v : list N)             (* GetDriveType *)
| XVolumeOpen (v : list N).           (* CreateFile(v, access 0) *)
Definition xhist := list xev.
(** The system: arbitrary functions of everything done so far (the current action included).  [x_text] is the conversion of UTF-16 without
    NUL to a Go string, windows.UTF16ToString; it is not modelled further. *)
Record xsys := {
  x_io : xhist -> wans; x_open : xhist -> err + N; x_data : xhist -> N; x_bounce : xhist -> N;
  x_class : xhist -> err + N; x_devinfo : xhist -> bool; x_iface : xhist -> N; x_detail : xhist -> N * (bytes * N);
  x_mode : xhist -> N; x_first : xhist -> err + (N * list N); x_next : xhist -> err + list N;
  x_names : xhist -> option (list N * N); x_info : xhist -> option (list N); x_type : xhist -> N; x_vopen : xhist -> err + N;
  x_text : list N -> bytes
}.
(** The system seen by the factory after [h]. *)
Definition wsys_at (X : xsys) (h : xhist) : wsys :=
  {| s_io := fun w => x_io X (h ++ map XSys w); s_open := fun w => x_open X (h ++ map XSys w) |}.
Definition waddr_at (X : xsys) (h : xhist) : waddr :=
  {| ad_data := fun w => x_data X (h ++ map XSys w); ad_bounce := fun w => x_bounce X (h ++ map XSys w) |}.
Definition x_open_by_path (X : xsys) (h : xhist) (path : bytes) : xhist * res whandle :=
  let '(w, r) := win_open_by_path (wsys_at X h) (waddr_at X h) [] path in (h ++ map XSys w, r).
Definition x_close (h : xhist) (x : whandle) : xhist := h ++ map XSys (fst (win_close [] x)).

(** ---- EnumDrives ---- *)
(** 16-bit units of a memory area, little-endian *)
Fixpoint units (b : bytes) : list N := match b with x :: y :: t => (x + 256 * y) :: units t | _ => [] end.
(** unsafe.Slice over [n] units at offset 4, up to the first NUL; drive_factory.go:165-166.  Without a NUL inside the buffer and with [n]
    larger than the units there, memory outside the buffer is read, which is not modelled ([Fuel]). *)
Definition detail_path (X : xsys) (buf : bytes) (n : N) : res bytes :=
  let us := units (skipn 4 buf) in
  let us' := if n <? blen us then firstn (N.to_nat n) us else us in
  match until_nul us' with
  | Some t => Ok (x_text X t)
  | None => if n <=? blen us then Ok (x_text X us') else Fuel
  end.
(** setupapi.go:47-65: the header's size field, then the call; errno, buffer, required size *)
Definition get_detail (X : xsys) (h : xhist) (d i : N) (buf : bytes) : xhist * (N * (bytes * N)) :=
  let h1 := h ++ [XDetail d i (blen buf)] in
  let '(e, (out, size)) := x_detail X h1 in
  (h1, (e, (fill (put 0 (le_bytes 4 8) buf) out, size))).
(** drive_factory.go:153-157, on uint32 *)
Definition round_1024 (n : N) : N := if 0 <? n mod 1024 then (n + (1024 - n mod 1024)) mod 2 ^ 32 else n.
(** drive_factory.go:149-166: device path; None: continue *)
Definition device_path (X : xsys) (h : xhist) (d i : N) (buf : bytes) : xhist * (bytes * res (option bytes)) :=
  let '(h1, (e1, (buf1, size1))) := get_detail X h d i buf in
  let finish (h2 : xhist) (e : N) (b : bytes) (size : N) : xhist * (bytes * res (option bytes)) :=
    let n := (size + (2 ^ 32 - 4)) mod 2 ^ 32 in
    if e =? 0 then (h2, (b, match detail_path X b n with Ok p => Ok (Some p) | Err x => Err x | Panic => Panic | Fuel => Fuel end))
    else (h2, (b, Ok None)) in
  if e1 =? 122 then
    let n := round_1024 size1 in
    if n =? 0 then (h1, ([], Panic))                                              (* &detailBuffer[0] *)
    else let '(h2, (e2, (buf2, size2))) := get_detail X h1 d i (zeros (N.to_nat n)) in finish h2 e2 buf2 size2
  else finish h1 e1 buf1 size1.
(** drive_factory.go:133-179; the drives opened so far are closed by the deferred calls *)
Fixpoint enum_devices (X : xsys) (fuel : nat) (h : xhist) (d : N) (i : nat) (buf : bytes) (xs : list whandle) : xhist * (list whandle * res unit) :=
  match fuel with
  | O => (h, (xs, Fuel))
  | S f =>
    let h1 := h ++ [XDevInfo d i] in
    if negb (x_devinfo X h1) then (h1, (xs, Ok tt))
    else
      let j := N.of_nat i mod 2 ^ 32 in
      let h2 := h1 ++ [XInterface d j] in
      let e := x_iface X h2 in
      if e =? 259 then enum_devices X f h2 d (S i) buf xs
      else if negb (e =? 0) then (h2, (xs, Ok tt))
      else match device_path X h2 d j buf with
           | (h3, (buf1, Ok None)) => enum_devices X f h3 d (S i) buf1 xs
           | (h3, (buf1, Ok (Some p))) =>
             match x_open_by_path X h3 p with
             | (h4, Ok x) => enum_devices X f h4 d (S i) buf1 (xs ++ [x])
             | (h4, Err _) => enum_devices X f h4 d (S i) buf1 xs
             | (h4, Panic) => (h4, (xs, Panic))
             | (h4, Fuel) => (h4, (xs, Fuel))
             end
           | (h3, (_, Err x)) => (h3, (xs, Err x))
           | (h3, (_, Panic)) => (h3, (xs, Panic))
           | (h3, (_, Fuel)) => (h3, (xs, Fuel))
           end
  end.
(** drive_factory.go:116-179; the drive infos in the result are those of the handles *)
Definition win_enum_drives (X : xsys) (fuel : nat) (h : xhist) : xhist * res (list whandle) :=
  let h1 := h ++ [XClassDevs] in
  match x_class X h1 with
  | inl e => (h1, Err e)
  | inr d =>
    let '(h2, (xs, r)) := enum_devices X fuel h1 d 0 (zeros 1024) [] in
    let h3 := fold_left x_close (rev xs) h2 ++ [XDestroy d] in
    match r with Ok _ => (h3, Ok xs) | Err e => (h3, Err e) | Panic => (h3, Panic) | Fuel => (h2, Fuel) end
  end.

(** ---- EnumVolumes ---- *)
(** volume.go:21-28; an extent is disk number, start, length *)
Record extent := { ex_disk : N; ex_start : N; ex_size : N }.
Record wvolume := { wv_path : bytes; wv_fs : bytes; wv_mounts : list bytes; wv_extents : list extent; wv_part : option wpart; wv_type : N }.
(** utils.go:253-260 *)
Fixpoint wlen (s : list N) : nat := match s with [] => O | x :: t => if x =? 0 then O else S (wlen t) end.
(** volume.go:118-123 *)
Fixpoint mount_loop (X : xsys) (fuel : nat) (buf : list N) (pos : nat) (acc : list bytes) : res (list bytes) :=
  match fuel with
  | O => Fuel
  | S f =>
    match nth_error buf pos with
    | None => Panic
    | Some u =>
      if u =? 0 then Ok acc
      else let textLen := wlen (skipn pos buf) in
           mount_loop X f buf (pos + textLen) (acc ++ [x_text X (firstn textLen (skipn pos buf))])
    end
  end.
(** volume.go:136-138: the text before its trailing backslashes *)
Fixpoint drop_backslashes (s : list N) : list N := match s with [] => [] | x :: t => if x =? 92 then drop_backslashes t else s end.
Definition strip_backslashes (s : list N) : list N := rev (drop_backslashes (rev s)).
(** volume.go:158-164 over the 4096-byte buffer: VOLUME_DISK_EXTENTS has the count at 0 and 24-byte extents from 8.  The extent at 4088
    starts inside the buffer and ends outside it, in memory that is not modelled ([Fuel]); the next one panics. *)
Definition extent_at (data : bytes) (off : nat) : extent :=
  {| ex_disk := le_val (slice off 4 data); ex_start := le_val (slice (off + 8) 8 data); ex_size := le_val (slice (off + 16) 8 data) |}.
Fixpoint extents_loop (data : bytes) (n : nat) (off : nat) : res (list extent) :=
  match n with
  | O => Ok []
  | S n' =>
    if (List.length data <=? off)%nat then Panic
    else match extents_loop data n' (off + 24) with
         | Ok es => if (off + 24 <=? List.length data)%nat then Ok (extent_at data off :: es) else Fuel
         | r => r
         end
  end.
(** volume.go:190-218: None: the query failed.  bytesReturned is not looked at. *)
Definition partition_info (X : xsys) (h : xhist) (hd : N) (e : extent) : xhist * option wpart :=
  let c := {| wc_handle := hd; wc_code := 0x70048; wc_in := []; wc_outlen := 144; wc_target := TNone; wc_mem := [] |} in
  let h1 := h ++ [XSys (WIo c)] in
  let a := x_io X h1 in
  if wa_err a =? 0 then
    let b := fill (zeros entry_size) (wa_out a) in
    (h1, Some {| wp_disk := ex_disk e; wp_start := ex_start e; wp_size := ex_size e; wp_entry := b;
                 wp_gpt := if entry_style b =? 1 then Some (gpt_info b) else None;
                 wp_mbr := if entry_style b =? 0 then Some (mbr_info b) else None |})
  else (h1, None).
(** The buffers that live across volumes: fsNameBuf and dataBuffer (volume.go:95-96). *)
Record vbufs := { vb_fs : list N; vb_data : bytes }.
(** volume.go:111-178: one volume, named by the contents [name] of volumeNameBuf.  Handles opened, and the item. *)
Definition volume_item (X : xsys) (h : xhist) (name : list N) (b : vbufs) : xhist * (list N * res (wvolume * vbufs)) :=
  let v := firstn (wlen name) name in
  let h1 := h ++ [XPathNames v] in
  let mounts := match x_names X h1 with
                | Some (us, len) => if 0 <? len then let buf := fill (zeros (N.to_nat 4096)) us in mount_loop X (S (List.length buf)) buf 0 [] else Ok []
                | None => Ok []
                end in
  match mounts with
  | Ok ms =>
    let h2 := h1 ++ [XVolumeInfo v] in
    let fsb := match x_info X h2 with Some us => fill (vb_fs b) us | None => vb_fs b end in
    let fs := match x_info X h2 with Some _ => x_text X (firstn (wlen fsb) fsb) | None => [] end in
    let h3 := h2 ++ [XDriveType v] in
    let t := x_type X h3 in
    let v1 := strip_backslashes v in
    let h4 := h3 ++ [XVolumeOpen v1] in
    let item es p := {| wv_path := x_text X v1; wv_fs := fs; wv_mounts := ms; wv_extents := es; wv_part := p; wv_type := t |} in
    match x_vopen X h4 with
    | inl _ => (h4, ([], Ok (item [] None, {| vb_fs := fsb; vb_data := vb_data b |})))
    | inr hd =>
      let c := {| wc_handle := hd; wc_code := 0x560000; wc_in := []; wc_outlen := 4096; wc_target := TNone; wc_mem := [] |} in
      let h5 := h4 ++ [XSys (WIo c)] in
      let a := x_io X h5 in
      let data := fill (vb_data b) (wa_out a) in
      let b' := {| vb_fs := zeros 128; vb_data := data |} in
      if wa_err a =? 0 then
        let n := le_val (slice 0 4 data) in
        match extents_loop data (N.to_nat n) 8 with
        | Ok es =>
          match es with
          | [] => (h5, ([hd], Ok (item [] None, b')))
          | e :: _ => let '(h6, p) := partition_info X h5 hd e in (h6, ([hd], Ok (item es p, b')))
          end
        | Err x => (h5, ([hd], Err x)) | Panic => (h5, ([hd], Panic)) | Fuel => (h5, ([hd], Fuel))
        end
      else (h5, ([hd], Ok (item [] None, b')))
    end
  | Err x => (h1, ([], Err x)) | Panic => (h1, ([], Panic)) | Fuel => (h1, ([], Fuel))
  end.
(** volume.go:110-185 *)
Fixpoint volume_loop (X : xsys) (fuel : nat) (h : xhist) (f : N) (name : list N) (b : vbufs) (vs : list wvolume) (hs : list N)
  : xhist * (list N * res (list wvolume)) :=
  match fuel with
  | O => (h, (hs, Fuel))
  | S fu =>
    let '(h1, (o, r)) := volume_item X h name b in
    let hs1 := hs ++ o in
    match r with
    | Ok (v, b1) =>
      let h2 := h1 ++ [XFindNext f] in
      match x_next X h2 with
      | inl _ => (h2, (hs1, Ok (vs ++ [v])))
      | inr us => volume_loop X fu h2 f (fill (zeros 320) us) b1 (vs ++ [v]) hs1
      end
    | Err e => (h1, (hs1, Err e)) | Panic => (h1, (hs1, Panic)) | Fuel => (h1, (hs1, Fuel))
    end
  end.
(** volume.go:88-188; SEM_FAILCRITICALERRORS = 1 *)
Definition win_enum_volumes (X : xsys) (fuel : nat) (h : xhist) : xhist * res (list wvolume) :=
  let h1 := h ++ [XErrorMode 1] in
  let prev := x_mode X h1 in
  let h2 := h1 ++ [XFindFirst] in
  match x_first X h2 with
  | inl e => (h2 ++ [XErrorMode prev], Err e)
  | inr (f, us) =>
    let '(h3, (hs, r)) := volume_loop X fuel h2 f (fill (zeros 320) us) {| vb_fs := zeros 128; vb_data := zeros page |} [] [] in
    let h4 := h3 ++ map (fun x => XSys (WClose x)) (rev hs) ++ [XFindClose f; XErrorMode prev] in
    match r with Fuel => (h3, Fuel) | _ => (h4, r) end
  end.

(** ---- the volume context ---- *)
(** common.VolumeInfo; volume.go:35-54 *)
Record wvolume_info := { wi_path : bytes; wi_fs : bytes; wi_mounts : list bytes; wi_parts : list wpart; wi_type : N }.
Definition to_wvolume_info (v : wvolume) : wvolume_info :=
  {| wi_path := wv_path v; wi_fs := wv_fs v; wi_mounts := wv_mounts v; wi_parts := match wv_part v with Some p => [p] | None => [] end; wi_type := wv_type v |}.
Definition win_get_list (vs : list wvolume) : list wvolume_info := map to_wvolume_info vs.
(** volume.go:56-68; [n] is WindowsDevNum *)
Definition win_find_volumes (vs : list wvolume) (n : Z) : list wvolume_info :=
  map to_wvolume_info (filter (fun v => match wv_extents v with [] => false | e :: _ => (Z.of_N (ex_disk e) =? n)%Z end) vs).
(** fmt %d of a uint32 *)
Fixpoint dec_digits (fuel : nat) (n : N) : bytes :=
  match fuel with O => [] | S f => if n <? 10 then [48 + n] else dec_digits f (n / 10) ++ [48 + n mod 10] end.
Definition physical_drive (n : N) : bytes := str "\\.\PhysicalDrive" ++ dec_digits 10 n.
(** volume.go:70-81; None: (nil, nil) *)
Fixpoint win_open_by_volume (S : wsys) (A : waddr) (h : whist) (vs : list wvolume) (p : bytes) : whist * option (res whandle) :=
  match vs with
  | [] => (h, None)
  | v :: t =>
    if beq (trim_suffix 92 (wv_path v)) p then
      match wv_extents v with
      | [] => (h, None)
      | e :: _ => let '(h1, r) := win_open_by_path S A h (physical_drive (ex_disk e)) in (h1, Some r)
      end
    else win_open_by_volume S A h t p
  end.
Definition win_open_by_volume_path (S : wsys) (A : waddr) (h : whist) (vs : list wvolume) (p : bytes) := win_open_by_volume S A h vs (trim_suffix 92 p).
(** volume.go:83-86; a partition not from this package (None) panics *)
Definition win_open_by_partition (S : wsys) (A : waddr) (h : whist) (p : option wpart) : whist * res whandle :=
  match p with Some q => win_open_by_path S A h (physical_drive (wp_disk q)) | None => (h, Panic) end.

(** volume.go:220-250 *)
Definition get_start (p : wpart) : N := wp_start p.
Definition get_size (p : wpart) : N := wp_size p.
Definition get_style (p : wpart) : N := if entry_style (wp_entry p) =? 1 then 2 else if entry_style (wp_entry p) =? 0 then 1 else 0.
Definition get_mbr_info (p : wpart) : option (N * bool) := if entry_style (wp_entry p) =? 0 then wp_mbr p else None.
Definition get_gpt_info (p : wpart) : option (bytes * bytes) := if entry_style (wp_entry p) =? 1 then wp_gpt p else None.

(** storage_types.go:76-99, 118-162 *)
Definition bus_names : list string :=
  ["Unknown"; "Scsi"; "Atapi"; "Ata"; "1394"; "Ssa"; "Fibre"; "Usb"; "RAID"; "iScsi"; "Sas"; "Sata"; "Sd"; "Mmc"; "Virtual";
   "FileBackedVirtual"; "Spaces"; "Nvme"; "SCM"; "Ufs"]%string.
Definition bus_type_name (t : N) : string := nth (N.to_nat t) bus_names ""%string.
