(** The Linux factory of M_LinuxFactory with its two real drivers (plat_linux/drive_factory.go:23-31, nvme_driver.go:37-75,
    sg_driver.go:60-80), all running against one system. *)
From Verif Require Import Base M_Buffer M_Ata M_TcgDevice M_DriveHandle M_Cdb M_SgDriver M_SgHandle M_NvmeLinux M_Strings M_LinuxInfo M_LinuxFactory.

(** What answers the program.  [sy_world]: everything but the two drivers (its w_probe is not used).  [sy_nvme h], [sy_sg h]: the
    kernel's answers to the ioctls of the NVMe and of the SG driver handle created when the factory's history is [h]; each is any
    function of the ioctls made through that handle.  This loses no generality: the NVMe handle makes its ioctls before the SG handle
    exists, and once the SG handle is installed the NVMe handle is unreachable.  The addresses are those of the drivers' buffers. *)
Record system := {
  sy_world : world;
  sy_nvme : lhist -> nv_kern; sy_nvme_addr : lhist -> nv_hist -> N;
  sy_sg : lhist -> kern; sy_sg_addr : lhist -> sg_hist -> N
}.

(** nvme_driver.go:37-52: OpenByFd.  nv_open never panics (C71); those branches only make the function total. *)
Definition probe_nvme (S : system) (h : lhist) (fd : N) : err + opened :=
  let K := sy_nvme S h in
  let A := sy_nvme_addr S h in
  match nv_open K [] fd (A []) with
  | (kh, Ok identity) => inr {| o_drv := nv_drv K fd A kh identity; o_type := {| is_ata := false; is_nvme := true |} |}
  | (_, Err e) => inl e
  | (_, _) => inl (EMsg "panic")
  end.
(** sg_driver.go:60-80: OpenByFd; the same remark (C66) *)
Definition probe_sg (S : system) (h : lhist) : err + opened :=
  let K := sy_sg S h in
  let A := sy_sg_addr S h in
  match sg_open K [] (A []) with
  | (kh, Ok identity) => inr {| o_drv := sg_drv K A kh identity; o_type := {| is_ata := true; is_nvme := false |} |}
  | (_, Err e) => inl e
  | (_, _) => inl (EMsg "panic")
  end.
(** drive_factory.go:23-31: driver 0 is NVMe, driver 1 is SG *)
Definition linux (S : system) : world :=
  let W := sy_world S in
  {| w_open := w_open W; w_basic := w_basic W; w_ids := w_ids W; w_dir := w_dir W; w_mode := w_mode W;
     w_probe := fun h => match rev h with
                         | LProbe O fd :: _ => probe_nvme S h fd
                         | LProbe _ _ :: _ => probe_sg S h
                         | _ => inl (EMsg "no such driver")
                         end |}.

(** All ioctls made so far through the driver of an open handle [x], [h] being the factory's history when it was created: those of
    the probe, then those of the calls the handle made. *)
Definition nvme_ioctls (S : system) (h : lhist) (x : handle) : nv_hist :=
  let K := sy_nvme S h in let A := sy_nvme_addr S h in
  nv_replay K (l_fd x) A (fst (nv_open K [] (l_fd x) (A []))) (l_calls x).
Definition sg_ioctls (S : system) (h : lhist) (x : handle) : sg_hist :=
  let K := sy_sg S h in let A := sy_sg_addr S h in
  sg_replay K A (fst (sg_open K [] (A []))) (l_calls x).
(** The handle after further calls of its driver: [cs] is everything the driver was asked so far. *)
Definition with_calls (x : handle) (cs : dhist) : handle :=
  {| l_dh := l_dh x; l_drv := l_drv x; l_calls := cs; l_fd := l_fd x; l_driving := l_driving x; l_driver_name := l_driver_name x;
     l_removable := l_removable x; l_style := l_style x; l_gpt := l_gpt x; l_mbr := l_mbr x; l_capacity := l_capacity x; l_vendor := l_vendor x |}.
