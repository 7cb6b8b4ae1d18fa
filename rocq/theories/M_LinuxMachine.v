(** The Linux factory, its two drivers and every drive handle of a program on ONE machine: plat_linux/drive_factory.go:38-124,
    nvme_driver.go:37-168, sg_driver.go:60-80, 285-311, common/drive_handle.go.  M_LinuxSystem answers the ioctls of each handle by
    functions of that handle's own ioctls; here everything the program does - files opened and closed, ioctls of all handles - is one
    history, and every answer is any function of all of it. *)
From Verif Require Import Base M_Buffer M_Ata M_TcgDevice M_DriveHandle M_Cdb M_SgDriver M_SgHandle M_NvmeLinux M_Strings M_LinuxInfo M_LinuxFactory M_LinuxVolume.

(** What the program does to the machine, oldest first: the events of M_LinuxFactory, NVMe ioctls (which carry their descriptor) and
    SG_IO ioctls with the descriptor they are made on. *)
Inductive gev : Type := GFile (e : lev) | GNvme (c : nv_call) | GSg (fd : N) (c : sg_call).
Definition ghist := list gev.
(** The machine: arbitrary functions of the whole history, the current action included.  [m_addr]: the address of the buffer of the
    next ioctl. *)
Record machine := {
  m_open : ghist -> err + N; m_basic : ghist -> disk_answers; m_ids : ghist -> id_answers; m_dir : ghist -> err + list bytes;
  m_mode : ghist -> option N; m_mounts : ghist -> err + mounts;
  m_nvme : ghist -> nv_ans; m_sg : ghist -> sg_ans; m_addr : ghist -> N
}.
(** The kernel as the NVMe and the SG driver see it from history [g] on. *)
Definition nvme_at (M : machine) (g : ghist) : nv_kern := fun k => m_nvme M (g ++ map GNvme k).
Definition nvme_addr_at (M : machine) (g : ghist) : nv_hist -> N := fun k => m_addr M (g ++ map GNvme k).
Definition sg_at (M : machine) (g : ghist) (fd : N) : kern := fun k => m_sg M (g ++ map (GSg fd) k).
Definition sg_addr_at (M : machine) (g : ghist) (fd : N) : sg_hist -> N := fun k => m_addr M (g ++ map (GSg fd) k).

(** A driver handle: nvme_driver.go:22-27, sg_driver.go:21-26 *)
Inductive lkind : Type := KNvme | KSg.
Record ldev := { d_kind : lkind; d_fd : N; d_identity : bytes }.
(** The behaviour of a driver handle from history [g] on. *)
Definition drv_at (M : machine) (g : ghist) (d : ldev) : drv :=
  match d_kind d with
  | KNvme => nv_drv (nvme_at M g) (d_fd d) (nvme_addr_at M g) [] (d_identity d)
  | KSg => sg_drv (sg_at M g (d_fd d)) (sg_addr_at M g (d_fd d)) [] (d_identity d)
  end.
(** The ioctls that the calls [cs] of the driver handle make in history [g]. *)
Definition ioctls_of (M : machine) (g : ghist) (d : ldev) (cs : dhist) : ghist :=
  match d_kind d with
  | KNvme => map GNvme (nv_replay (nvme_at M g) (d_fd d) (nvme_addr_at M g) [] cs)
  | KSg => map (GSg (d_fd d)) (sg_replay (sg_at M g (d_fd d)) (sg_addr_at M g (d_fd d)) [] cs)
  end.
Definition dtype_of (k : lkind) : dtype :=
  match k with KNvme => {| is_ata := false; is_nvme := true |} | KSg => {| is_ata := true; is_nvme := false |} end.

(** common.DriveHandleImpl over a Linux driver handle.  [gh_dev]: the driver installed last; [gh_dh]: DriveHandleImpl itself (its p_dh is
    None once closed).  [gh_path] and [gh_fd]: what it was opened with.  [gh_driving] and [gh_driver_name]: the two DriveInfo fields of drive_factory.go:80-81.
    Simplification: the other DriveInfo fields the factory copies from ReadBasicInfo and getIdInfo are the business of M_LinuxFactory
    and are left out, except the texts, which Init may overwrite. *)
Record ghandle := { gh_path : bytes; gh_fd : N; gh_dh : dh; gh_dev : option ldev; gh_driving : N; gh_driver_name : bytes }.

(** nvme_driver.go:37-52, sg_driver.go:60-80: OpenByFd of driver [n]; the driver handle if it accepts the descriptor *)
Definition gprobe (M : machine) (g : ghist) (n : nat) (fd : N) : ghist * option ldev :=
  match n with
  | O => let '(k, r) := nv_open (nvme_at M g) [] fd (nvme_addr_at M g []) in
         (g ++ map GNvme k, match r with Ok identity => Some {| d_kind := KNvme; d_fd := fd; d_identity := identity |} | _ => None end)
  | _ => let '(k, r) := sg_open (sg_at M g fd) [] (sg_addr_at M g fd []) in
         (g ++ map (GSg fd) k, match r with Ok identity => Some {| d_kind := KSg; d_fd := fd; d_identity := identity |} | _ => None end)
  end.
(** drive_factory.go:78-83: the driver handle is installed and Init runs; its error is ignored, a panic is not *)
Definition ginstall (M : machine) (g : ghist) (x : ghandle) (d : ldev) : ghist * (ghandle * res unit) :=
  let V := drv_at M g d in
  let p := {| p_dh := Some (dtype_of (d_kind d)); p_info := p_info (gh_dh x) |} in
  let '(cs, (p', r)) := init V p [CType; CName] in
  (g ++ ioctls_of M g d cs,
   ({| gh_path := gh_path x; gh_fd := gh_fd x; gh_dh := p'; gh_dev := Some d; gh_driving := v_type V [CType]; gh_driver_name := v_name V [CType; CName] |}, r)).
(** drive_factory.go:76-84 *)
Fixpoint gprobe_loop (M : machine) (g : ghist) (fd : N) (x : ghandle) (n k : nat) : ghist * res ghandle :=
  match k with
  | O => (g, Ok x)
  | S k' =>
    match gprobe M (g ++ [GFile (LProbe n fd)]) n fd with
    | (g1, None) => gprobe_loop M g1 fd x (S n) k'
    | (g1, Some d) =>
      match ginstall M g1 x d with
      | (g2, (x1, (Ok _ | Err _))) => gprobe_loop M g2 fd x1 (S n) k'
      | (g2, (_, Panic)) => (g2, Panic)
      | (g2, (_, Fuel)) => (g2, Fuel)
      end
    end
  end.
(** drive_factory.go:54-86 *)
Definition gopen_by_fd (M : machine) (g : ghist) (fd : N) (path : bytes) : ghist * res ghandle :=
  let g1 := g ++ [GFile (LBasic fd path)] in
  let g2 := g1 ++ [GFile (LIds path)] in
  let i := match get_id_info path (m_ids M g2) with
           | Ok (model, serial, vendor, rev) => with_texts (new_info path) model serial rev
           | _ => with_texts (new_info path) [] [] []
           end in
  gprobe_loop M g2 fd {| gh_path := path; gh_fd := fd; gh_dh := {| p_dh := None; p_info := i |}; gh_dev := None; gh_driving := 0; gh_driver_name := [] |} 0 driver_count.
(** drive_factory.go:38-52 *)
Definition gopen_by_path (M : machine) (g : ghist) (path : bytes) : ghist * res ghandle :=
  let g1 := g ++ [GFile (LOpen path)] in
  match m_open M g1 with
  | inl e => (g1, Err e)
  | inr fd =>
    match gopen_by_fd M g1 fd path with
    | (g2, Err e) => (g2 ++ [GFile (LClose fd)], Err e)
    | r => r
    end
  end.
(** common/drive_handle.go:95-100 over nvme_driver.go:154-156, sg_driver.go:297-299 *)
Definition gclose (g : ghist) (x : ghandle) : ghist * ghandle :=
  match p_dh (gh_dh x) with
  | None => (g, x)
  | Some _ => (g ++ [GFile (LClose (gh_fd x))],
               {| gh_path := gh_path x; gh_fd := gh_fd x; gh_dh := {| p_dh := None; p_info := p_info (gh_dh x) |}; gh_dev := None;
                  gh_driving := gh_driving x; gh_driver_name := gh_driver_name x |})
  end.
(** drive_factory.go:98-119 *)
Fixpoint genum_loop (M : machine) (g : ghist) (names : list bytes) (xs : list ghandle) : ghist * res (list ghandle) :=
  match names with
  | [] => (g, Ok xs)
  | name :: rest =>
    if contains (str "loop") name then genum_loop M g rest xs
    else
      let g1 := g ++ [GFile (LStat (dev_path name))] in
      match m_mode M g1 with
      | None => genum_loop M g1 rest xs
      | Some mode =>
        if is_block mode then
          if contains (str "sr") name then genum_loop M g1 rest xs
          else match gopen_by_path M g1 (dev_path name) with
               | (g2, Ok x) => genum_loop M g2 rest (xs ++ [x])
               | (g2, Err _) => genum_loop M g2 rest xs
               | (g2, Panic) => (fold_left (fun k x => fst (gclose k x)) (rev xs) g2, Panic)
               | (g2, Fuel) => (g2, Fuel)
               end
        else genum_loop M g1 rest xs
      end
  end.
(** drive_factory.go:88-121 *)
Definition genum_drives (M : machine) (g : ghist) : ghist * res (list ghandle) :=
  let g1 := g ++ [GFile LReadDir] in
  match m_dir M g1 with
  | inl e => (g1, Err (EMsg "open /sys/block failed"))
  | inr names =>
    match genum_loop M g1 names [] with
    | (g2, Ok xs) => (fold_left (fun k x => fst (gclose k x)) (rev xs) g2, Ok xs)
    | r => r
    end
  end.
(** drive_factory.go:123-125 and volume.go: EnumVolumes makes no drive command, so M_LinuxVolume's function runs on the events it adds *)
Definition files_at (M : machine) (g : ghist) : vworld :=
  {| vw := {| w_open := fun h => m_open M (g ++ map GFile h); w_basic := fun h => m_basic M (g ++ map GFile h);
              w_ids := fun h => m_ids M (g ++ map GFile h); w_probe := fun _ => inl (EMsg "no such driver");
              w_dir := fun h => m_dir M (g ++ map GFile h); w_mode := fun h => m_mode M (g ++ map GFile h) |};
     vw_mounts := fun h => m_mounts M (g ++ map GFile h) |}.
Definition genum_volumes (M : machine) (g : ghist) : ghist := g ++ map GFile (fst (enum_volumes (files_at M g) [])).

(** A program: any sequence of calls.  Which call comes next may depend on all earlier results; on a given machine that fixes the
    sequence, so quantifying over sequences covers every program.  A call that panics leaves the program running (it may recover). *)
Inductive gop : Type :=
| GOpen (path : bytes)            (* OpenByPath; a handle, if returned, is appended to the program's handles *)
| GEnum | GVolumes                (* EnumDrives, EnumVolumes *)
| GOn (i : nat) (o : hop).        (* a call on the i-th handle *)
Record gstate := { st_hist : ghist; st_handles : list ghandle }.
Fixpoint replace_nth {A} (i : nat) (a : A) (l : list A) : list A :=
  match l, i with [], _ => [] | _ :: t, O => a :: t | b :: t, S j => b :: replace_nth j a t end.
(** A call on a handle: common/drive_handle.go (M_DriveHandle.hstep).  A handle without driver makes no driver call, so the driver passed
    to hstep then is irrelevant. *)
Definition no_drv : drv :=
  {| v_io := fun _ => (None, []); v_tf := fun _ => tf0; v_identity := fun _ => []; v_log := fun _ => ([], None); v_type := fun _ => 0; v_name := fun _ => [] |}.
Definition gcall (M : machine) (g : ghist) (x : ghandle) (o : hop) : ghist * ghandle :=
  match o with
  | HClose => gclose g x
  | _ =>
    let V := match gh_dev x with Some d => drv_at M g d | None => no_drv end in
    let '(cs, (p, _)) := hstep V (gh_dh x) [] o in
    (match gh_dev x with Some d => g ++ ioctls_of M g d cs | None => g end,
     {| gh_path := gh_path x; gh_fd := gh_fd x; gh_dh := p; gh_dev := gh_dev x; gh_driving := gh_driving x; gh_driver_name := gh_driver_name x |})
  end.
Definition gstep (M : machine) (s : gstate) (o : gop) : gstate :=
  match o with
  | GOpen path => match gopen_by_path M (st_hist s) path with
                  | (g, Ok x) => {| st_hist := g; st_handles := st_handles s ++ [x] |}
                  | (g, _) => {| st_hist := g; st_handles := st_handles s |}
                  end
  | GEnum => {| st_hist := fst (genum_drives M (st_hist s)); st_handles := st_handles s |}
  | GVolumes => {| st_hist := genum_volumes M (st_hist s); st_handles := st_handles s |}
  | GOn i h => match nth_error (st_handles s) i with
               | Some x => let '(g, x') := gcall M (st_hist s) x h in {| st_hist := g; st_handles := replace_nth i x' (st_handles s) |}
               | None => s
               end
  end.
Definition grun (M : machine) (ops : list gop) : gstate := fold_left (gstep M) ops {| st_hist := []; st_handles := [] |}.
