(** Model of plat_win/drive_factory.go:21-183 and plat_win/setupapi.go, with common.DriveHandleImpl on top. *)
From Verif Require Import Base M_Buffer M_Struc M_Layouts M_Ata M_TcgDevice M_DriveHandle M_SgDriver M_Strings M_WinPass M_WinNvme M_WinInfo.

(** DriveHandleImpl with the DriveInfo fields M_DriveHandle does not touch (common/types.go:62-96).  [f_drv]: the driver handle, the events
    before it was installed and the calls made to it. *)
Record whandle := {
  f_dh : dh; f_drv : option (wdh * whist * dhist);
  f_driving : N; f_driver_name : bytes; f_removable : Z;
  f_style : N; f_gpt : bytes; f_mbr : N; f_parts : list wpart;
  f_devnum : N; f_capacity : Z;
  f_vendor : bytes; f_revision : bytes; f_drive_type : N
}.
(** int64(uint64) *)
Definition to_int64 (n : N) : Z := if n <? 2 ^ 63 then Z.of_N n else (Z.of_N n - 2 ^ 64)%Z.
(** drive_factory.go:54-72 *)
Definition whandle0 (path : bytes) (b : wbasic) : whandle :=
  {| f_dh := {| p_dh := None; p_info := new_info path |}; f_drv := None; f_driving := 0; f_driver_name := []; f_removable := -1;
     f_style := wb_style b; f_gpt := wb_gpt b; f_mbr := wb_mbr b; f_parts := wb_parts b;
     f_devnum := match wb_devnum b with Some n => n | None => 0 end;
     f_capacity := match wb_size b with Some n => to_int64 n | None => 0%Z end;
     f_vendor := []; f_revision := []; f_drive_type := 0 |}.

(** The drivers' OpenByHandle (ata_driver.go:49-69, scsi_driver.go:42-62, nvme_win_driver.go:99-127, windows_nvme_driver.go:65-80). *)
Definition win_probe (S : wsys) (A : waddr) (h : whist) (hd : N) (k : wkind) : whist * res wdh :=
  let mk (sh : N) (i : bytes) := {| wd_kind := k; wd_handle := hd; wd_scsi := sh; wd_identity := i |} in
  let simple (r : whist * res bytes) : whist * res wdh :=
    let '(h1, x) := r in (h1, match x with Ok i => Ok (mk 0 i) | Err e => Err e | Panic => Panic | Fuel => Fuel end) in
  match k with
  | KNvmeWin => let '(h1, x) := nvmewin_open S h hd in
                (h1, match x with Ok (sh, i) => Ok (mk sh i) | Err e => Err e | Panic => Panic | Fuel => Fuel end)
  | KWinNvme => simple (winnvme_open S h hd)
  | KScsi => simple (win_scsi_open S h hd (ad_data A h) (ad_bounce A h))
  | KAta => simple (win_ata_open S h hd (ad_data A h) (ad_bounce A h))
  end.
(** drive_factory.go:75-81: install the driver, run Init and ignore its error *)
Definition win_install (S : wsys) (A : waddr) (h : whist) (x : whandle) (d : wdh) : whist * res whandle :=
  let V := win_drv S A d h in
  let '(calls, (p', r)) := init V {| p_dh := Some (win_dtype (wd_kind d)); p_info := p_info (f_dh x) |} [CType; CName] in
  let h1 := win_replay S A d h calls in
  match r with
  | Ok _ | Err _ =>
    (h1, Ok {| f_dh := p'; f_drv := Some (d, h, calls); f_driving := v_type V [CType]; f_driver_name := v_name V [CType; CName];
               f_removable := f_removable x; f_style := f_style x; f_gpt := f_gpt x; f_mbr := f_mbr x; f_parts := f_parts x;
               f_devnum := f_devnum x; f_capacity := f_capacity x; f_vendor := f_vendor x; f_revision := f_revision x; f_drive_type := f_drive_type x |})
  | Panic => (h1, Panic)
  | Fuel => (h1, Fuel)
  end.

(** drive_factory.go:101-110 *)
Definition drive_type_of (t old : N) : N := if t =? 0 then 3 else if t =? 1 then 7 else if t =? 5 then 5 else if t =? 9 then 4 else old.
(** drive_factory.go:85-111 *)
Definition with_model_serial (i : info) (model serial : bytes) : info :=
  {| i_path := i_path i; i_model := if beq (i_model i) [] then model else i_model i; i_serial := if beq (i_serial i) [] then serial else i_serial i;
     i_fw := i_fw i; i_raw_serial := i_raw_serial i;
     i_smart := i_smart i; i_ata := i_ata i; i_ata_raw := i_ata_raw i; i_nvme := i_nvme i; i_nvme_raw := i_nvme_raw i;
     i_ssd := i_ssd i; i_weight := i_weight i; i_support := i_support i; i_tcg := i_tcg i; i_raw_made := i_raw_made i |}.
Definition with_descr (x : whandle) (d : descr) : whandle :=
  {| f_dh := with_info (f_dh x) (with_model_serial (p_info (f_dh x)) (de_product d) (de_serial d));
     f_drv := f_drv x; f_driving := f_driving x; f_driver_name := f_driver_name x; f_removable := if de_removable d then 1 else 0;
     f_style := f_style x; f_gpt := f_gpt x; f_mbr := f_mbr x; f_parts := f_parts x; f_devnum := f_devnum x; f_capacity := f_capacity x;
     f_vendor := de_vendor d; f_revision := de_revision d; f_drive_type := drive_type_of (de_type d) (f_drive_type x) |}.

(** drive_factory.go:74-83: the first driver that accepts the device, if any *)
Fixpoint win_probes (S : wsys) (A : waddr) (h : whist) (hd : N) (x : whandle) (ks : list wkind) : whist * res (option whandle) :=
  match ks with
  | [] => (h, Ok None)
  | k :: ks' =>
    match win_probe S A h hd k with
    | (h1, Ok d) => match win_install S A h1 x d with
                    | (h2, Ok x1) => (h2, Ok (Some x1))
                    | (h2, Err e) => (h2, Err e) | (h2, Panic) => (h2, Panic) | (h2, Fuel) => (h2, Fuel)
                    end
    | (h1, Err _) => win_probes S A h1 hd x ks'
    | (h1, Panic) => (h1, Panic)
    | (h1, Fuel) => (h1, Fuel)
    end
  end.
(** drive_factory.go:25-35 *)
Definition win_drivers : list wkind := [KNvmeWin; KWinNvme; KScsi; KAta].

(** drive_factory.go:53-114 *)
Definition win_open_by_handle (S : wsys) (A : waddr) (h : whist) (hd : N) (path : bytes) : whist * res whandle :=
  let '(h1, b) := win_basic_info S h hd in
  match b with
  | Ok basic =>
    let x := whandle0 path basic in
    match win_probes S A h1 hd x win_drivers with
    | (h2, Ok (Some x1)) => (h2, Ok x1)
    | (h2, Ok None) =>
      let '(h3, q) := win_storage_query S h2 hd in
      (h3, match q with Ok d => Ok (with_descr x d) | Err _ => Ok x | Panic => Panic | Fuel => Fuel end)
    | (h2, Err e) => (h2, Err e) | (h2, Panic) => (h2, Panic) | (h2, Fuel) => (h2, Fuel)
    end
  | Err e => (h1, Err e) | Panic => (h1, Panic) | Fuel => (h1, Fuel)
  end.
(** utils.go:30-44: UTF16PtrFromString refuses a string with a NUL byte (syscall.EINVAL) *)
Definition bad_path : err := EMsg "invalid argument".
(** drive_factory.go:37-51 *)
Definition win_open_by_path (S : wsys) (A : waddr) (h : whist) (path : bytes) : whist * res whandle :=
  if existsb (N.eqb 0) path then (h, Err bad_path)
  else
    let '(h1, o) := open_device S h path in
    match o with
    | inl e => (h1, Err e)
    | inr hd =>
      match win_open_by_handle S A h1 hd path with
      | (h2, Ok x) => (h2, Ok x)
      | (h2, Err e) => (close_handle h2 hd, Err e)
      | (h2, r) => (h2, r)
      end
    end.
(** common/drive_handle.go:95-100 over a Windows driver *)
Definition win_close (h : whist) (x : whandle) : whist * whandle :=
  match f_drv x with
  | None => (h, x)
  | Some (d, _, _) =>
    (close_handle h (wd_handle d),
     {| f_dh := {| p_dh := None; p_info := p_info (f_dh x) |}; f_drv := None; f_driving := f_driving x; f_driver_name := f_driver_name x;
        f_removable := f_removable x; f_style := f_style x; f_gpt := f_gpt x; f_mbr := f_mbr x; f_parts := f_parts x; f_devnum := f_devnum x;
        f_capacity := f_capacity x; f_vendor := f_vendor x; f_revision := f_revision x; f_drive_type := f_drive_type x |})
  end.
