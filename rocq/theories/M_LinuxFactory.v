(** Model of plat_linux/drive_factory.go:19-121 and plat_linux/utils.go:31-34 (OpenDevice), with common.DriveHandleImpl on top. *)
From Verif Require Import Base M_Buffer M_Struc M_Layouts M_Ata M_TcgDevice M_DriveHandle M_SgDriver M_Strings M_LinuxInfo.

(** What the factory does to the outside world, oldest first. *)
Inductive lev : Type :=
| LOpen (path : bytes)             (* unix.Open(path, O_RDWR|O_NONBLOCK) *)
| LBasic (fd : N) (path : bytes)   (* ReadBasicInfo *)
| LIds (path : bytes)              (* getIdInfo *)
| LProbe (n : nat) (fd : N)        (* OpenByFd of driver n *)
| LClose (fd : N)                  (* unix.Close *)
| LReadDir                         (* os.ReadDir("/sys/block") *)
| LStat (path : bytes)             (* unix.Stat *)
| LMounts.                         (* os.Open("/proc/mounts") and reading it *)
Definition lhist := list lev.

(** A driver handle: its behaviour and the optional interfaces it implements. *)
Record opened := { o_drv : drv; o_type : dtype }.
(** The world: arbitrary functions of everything done so far (the current action included). *)
Record world := {
  w_open : lhist -> err + N;
  w_basic : lhist -> disk_answers;
  w_ids : lhist -> id_answers;
  w_probe : lhist -> err + opened;
  w_dir : lhist -> err + list bytes;
  w_mode : lhist -> option N          (* st_mode; None: stat failed *)
}.

(** DriveHandleImpl with the DriveInfo fields M_DriveHandle does not touch (common/types.go:62-96). *)
Record handle := {
  l_dh : dh; l_drv : option drv; l_calls : dhist;     (* calls made to the current driver *)
  l_fd : N;                                           (* the descriptor the current driver would close *)
  l_driving : N; l_driver_name : bytes; l_removable : Z;
  l_style : N; l_gpt : bytes; l_mbr : N; l_capacity : Z; l_vendor : bytes
}.
(** drive_factory.go:58-61 *)
Definition handle0 (fd : N) (path : bytes) : handle :=
  {| l_dh := {| p_dh := None; p_info := new_info path |}; l_drv := None; l_calls := []; l_fd := fd;
     l_driving := 0; l_driver_name := []; l_removable := -1; l_style := 0; l_gpt := []; l_mbr := 0; l_capacity := 0; l_vendor := [] |}.
(** drive_factory.go:65-70 *)
Definition with_basic (x : handle) (b : basic) : handle :=
  {| l_dh := l_dh x; l_drv := l_drv x; l_calls := l_calls x; l_fd := l_fd x; l_driving := l_driving x; l_driver_name := l_driver_name x;
     l_removable := l_removable x; l_style := ba_style b; l_gpt := ba_gpt b; l_mbr := ba_mbr b; l_capacity := ba_total b; l_vendor := l_vendor x |}.
(** drive_factory.go:73 *)
Definition with_texts (i : info) (model serial rev : bytes) : info :=
  {| i_path := i_path i; i_model := model; i_serial := serial; i_fw := rev; i_raw_serial := i_raw_serial i;
     i_smart := i_smart i; i_ata := i_ata i; i_ata_raw := i_ata_raw i; i_nvme := i_nvme i; i_nvme_raw := i_nvme_raw i;
     i_ssd := i_ssd i; i_weight := i_weight i; i_support := i_support i; i_tcg := i_tcg i; i_raw_made := i_raw_made i |}.
Definition with_ids (x : handle) (model serial vendor rev : bytes) : handle :=
  {| l_dh := with_info (l_dh x) (with_texts (p_info (l_dh x)) model serial rev); l_drv := l_drv x; l_calls := l_calls x; l_fd := l_fd x;
     l_driving := l_driving x; l_driver_name := l_driver_name x; l_removable := l_removable x; l_style := l_style x; l_gpt := l_gpt x;
     l_mbr := l_mbr x; l_capacity := l_capacity x; l_vendor := vendor |}.
(** drive_factory.go:79-82: the handle once driver [o] is installed and Init has run; the error of Init is ignored, a panic is not *)
Definition install (x : handle) (o : opened) : handle * res unit :=
  let V := o_drv o in
  let p := {| p_dh := Some (o_type o); p_info := p_info (l_dh x) |} in
  let '(calls, (p', r)) := init V p [CType; CName] in
  ({| l_dh := p'; l_drv := Some V; l_calls := calls; l_fd := l_fd x;
      l_driving := v_type V [CType]; l_driver_name := v_name V [CType; CName];
      l_removable := l_removable x; l_style := l_style x; l_gpt := l_gpt x; l_mbr := l_mbr x; l_capacity := l_capacity x; l_vendor := l_vendor x |},
   r).

(** drive_factory.go:76-84: the loop over drivers [n], [n+1], ... ([k] of them) *)
Fixpoint probe_loop (W : world) (h : lhist) (fd : N) (x : handle) (n k : nat) : lhist * res handle :=
  match k with
  | O => (h, Ok x)
  | S k' =>
    let h1 := h ++ [LProbe n fd] in
    match w_probe W h1 with
    | inl _ => probe_loop W h1 fd x (S n) k'
    | inr o =>
      match install x o with
      | (x1, (Ok _ | Err _)) => probe_loop W h1 fd x1 (S n) k'
      | (_, Panic) => (h1, Panic)
      | (_, Fuel) => (h1, Fuel)
      end
    end
  end.
(** drive_factory.go:23-31: NVMe, then SG *)
Definition driver_count : nat := 2.

(** drive_factory.go:54-86 *)
Definition open_by_fd (W : world) (h : lhist) (fd : N) (path : bytes) : lhist * res handle :=
  let h1 := h ++ [LBasic fd path] in
  let x1 := match read_basic_info path (w_basic W h1) with Ok b => with_basic (handle0 fd path) b | _ => handle0 fd path end in
  let h2 := h1 ++ [LIds path] in
  let x2 := match get_id_info path (w_ids W h2) with
            | Ok (model, serial, vendor, rev) => with_ids x1 model serial vendor rev
            | _ => with_ids x1 [] [] [] []
            end in
  probe_loop W h2 fd x2 0 driver_count.

(** drive_factory.go:38-52 *)
Definition open_by_path (W : world) (h : lhist) (path : bytes) : lhist * res handle :=
  let h1 := h ++ [LOpen path] in
  match w_open W h1 with
  | inl e => (h1, Err e)
  | inr fd =>
    match open_by_fd W h1 fd path with
    | (h2, Ok x) => (h2, Ok x)
    | (h2, Err e) => (h2 ++ [LClose fd], Err e)
    | (h2, r) => (h2, r)
    end
  end.

(** common/drive_handle.go:95-100 over a Linux driver (nvme_driver.go:154-156, sg_driver.go:297-299: unix.Close(fd)) *)
Definition close_handle (h : lhist) (x : handle) : lhist * handle :=
  match p_dh (l_dh x) with
  | None => (h, x)
  | Some _ => (h ++ [LClose (l_fd x)],
     {| l_dh := {| p_dh := None; p_info := p_info (l_dh x) |}; l_drv := None; l_calls := l_calls x ++ [CClose]; l_fd := l_fd x;
        l_driving := l_driving x; l_driver_name := l_driver_name x; l_removable := l_removable x; l_style := l_style x; l_gpt := l_gpt x;
        l_mbr := l_mbr x; l_capacity := l_capacity x; l_vendor := l_vendor x |})
  end.

(** drive_factory.go:98-119: one directory entry *)
Definition dev_path (name : bytes) : bytes := str "/dev/" ++ name.
Definition is_block (mode : N) : bool := N.land mode 0xf000 =? 0x6000.
Fixpoint enum_loop (W : world) (h : lhist) (names : list bytes) (opened_ : list handle) : lhist * res (list handle) :=
  match names with
  | [] => (h, Ok opened_)
  | name :: rest =>
    if contains (str "loop") name then enum_loop W h rest opened_
    else
      let h1 := h ++ [LStat (dev_path name)] in
      match w_mode W h1 with
      | None => enum_loop W h1 rest opened_
      | Some mode =>
        if is_block mode then
          if contains (str "sr") name then enum_loop W h1 rest opened_
          else match open_by_path W h1 (dev_path name) with
               | (h2, Ok x) => enum_loop W h2 rest (opened_ ++ [x])
               | (h2, Err _) => enum_loop W h2 rest opened_
               | (h2, Panic) => (fold_left (fun k x => fst (close_handle k x)) (rev opened_) h2, Panic)   (* deferred calls run *)
               | (h2, Fuel) => (h2, Fuel)
               end
        else enum_loop W h1 rest opened_
      end
  end.
(** drive_factory.go:88-121; the drive infos copied into the result are those of the handles *)
Definition enum_drives (W : world) (h : lhist) : lhist * res (list handle) :=
  let h1 := h ++ [LReadDir] in
  match w_dir W h1 with
  | inl e => (h1, Err (EMsg "open /sys/block failed"))
  | inr names =>
    match enum_loop W h1 names [] with
    | (h2, Ok xs) => (fold_left (fun k x => fst (close_handle k x)) (rev xs) h2, Ok xs)
    | r => r
    end
  end.
