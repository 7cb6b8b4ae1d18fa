(** Model of plat_linux/nvme_driver.go, nvme_types.go, nvme_ioctl.go, ioctl_utils.go and nvme/types.go:459-475. *)
From Verif Require Import Base M_Buffer M_Ata M_TcgDevice M_DriveHandle M_SgDriver.

(** plat_linux/ioctl_utils.go:36-39 (IOC); shifts of small constants do not overflow a 64-bit uintptr *)
Definition ioc (dir t nr size : N) : N :=
  N.lor (N.lor (N.lor (N.shiftl dir 30) (N.shiftl t 8)) (N.shiftl nr 0)) (N.shiftl size 16).
(** ioctl_utils.go:42-44: READ|WRITE, as IOWR *)
Definition ior (t nr size : N) : N := ioc (N.lor 2 1) t nr size.
(** ioctl_utils.go:47-49 *)
Definition iow (t nr size : N) : N := ioc 1 t nr size.
(** ioctl_utils.go:52-54 *)
Definition iowr (t nr size : N) : N := ioc (N.lor 2 1) t nr size.
(** ioctl_utils.go:57-59 *)
Definition io (t nr : N) : N := ioc 0 t nr 0.

(** plat_linux/nvme_types.go:18-37 (PassthruCmd = NvmeAdminCmd) as laid out in memory on a little-endian 64-bit machine:
    the fields are naturally aligned, so there is no padding. *)
Definition passthru_mem (opcode flags rsvd1 nsid cdw2 cdw3 metadata addr metadata_len data_len cdw10 cdw11 cdw12 cdw13 cdw14 cdw15
                         timeout_ms result : N) : bytes :=
  le_bytes 1 opcode ++ le_bytes 1 flags ++ le_bytes 2 rsvd1 ++ le_bytes 4 nsid ++ le_bytes 4 cdw2 ++ le_bytes 4 cdw3
  ++ le_bytes 8 metadata ++ le_bytes 8 addr ++ le_bytes 4 metadata_len ++ le_bytes 4 data_len ++ le_bytes 4 cdw10
  ++ le_bytes 4 cdw11 ++ le_bytes 4 cdw12 ++ le_bytes 4 cdw13 ++ le_bytes 4 cdw14 ++ le_bytes 4 cdw15 ++ le_bytes 4 timeout_ms
  ++ le_bytes 4 result.
(** plat_linux/nvme_types.go:3-16 (UserIo): 44 bytes of fields, rounded up to a multiple of 8 *)
Definition user_io_mem (opcode flags control nblocks rsvd metadata addr slba dsmgmt reftag apptag appmask : N) : bytes :=
  le_bytes 1 opcode ++ le_bytes 1 flags ++ le_bytes 2 control ++ le_bytes 2 nblocks ++ le_bytes 2 rsvd
  ++ le_bytes 8 metadata ++ le_bytes 8 addr ++ le_bytes 8 slba ++ le_bytes 4 dsmgmt ++ le_bytes 4 reftag
  ++ le_bytes 2 apptag ++ le_bytes 2 appmask ++ zeros 4.

(** unsafe.Sizeof of the three argument types: nvme_types.go:3-16, 18-39, 41-61 *)
Definition sizeof_user_io : N := 48.
Definition sizeof_passthru : N := 72.
Definition sizeof_passthru64 : N := 80.

(** plat_linux/nvme_ioctl.go:8-18 *)
Definition NVME_IOCTL_ID : N := io 0x4E 0x40.
Definition NVME_IOCTL_ADMIN_CMD : N := iowr 0x4E 0x41 sizeof_passthru.
Definition NVME_IOCTL_SUBMIT_IO : N := iow 0x4E 0x42 sizeof_user_io.
Definition NVME_IOCTL_IO_CMD : N := iowr 0x4E 0x43 sizeof_passthru.
Definition NVME_IOCTL_RESET : N := io 0x4E 0x44.
Definition NVME_IOCTL_SUBSYS_RESET : N := io 0x4E 0x45.
Definition NVME_RESCAN : N := io 0x4E 0x46.
Definition NVME_IOCTL_ADMIN64_CMD : N := iowr 0x4E 0x47 sizeof_passthru64.
Definition NVME_IOCTL_IO64_CMD : N := iowr 0x4E 0x48 sizeof_passthru64.

(** One ioctl as the kernel sees it: request number, the argument structure, and the contents of the caller's data buffer when
    the argument points at it ([] otherwise). *)
Record nv_call := { nc_fd : N; nc_req : N; nc_arg : bytes; nc_buf : bytes }.
Definition nv_hist := list nv_call.   (* oldest first *)
(** Raw system call results, data returned by the device, completion dword 0. *)
Record nv_ans := { na_errno : N; na_ret : N; na_in : bytes; na_result : N }.
Definition nv_kern := nv_hist -> nv_ans.

(** Environment (linux/nvme_ioctl.h): the kernel moves data_len bytes (bytes 36..39 of the argument); to the host exactly when the
    low opcode bit is 0; completion dword 0 is stored at offset 68.  Transfers beyond the end of the caller's buffer are outside
    the model.  Result: error, argument structure and buffer afterwards. *)
Definition nv_ioctl (K : nv_kern) (h : nv_hist) (c : nv_call) : nv_hist * (option err * (bytes * bytes)) :=
  let h1 := h ++ [c] in
  let a := K h1 in
  let len := N.to_nat (le_val (slice 36 4 (nc_arg c))) in
  (h1, (ioctl_result (na_errno a) (na_ret a),
        (firstn 68 (nc_arg c) ++ le_bytes 4 (na_result a),
         if N.odd (le_val (slice 0 1 (nc_arg c))) then nc_buf c else fill (nc_buf c) (firstn len (na_in a))))).

(** nvme/types.go:467-475; [buf_addr] is the address of DataBuffer[0] *)
Definition admin_data_addr (c : admin_cmd) (buf_addr : N) : N :=
  if negb (c_data_addr c =? 0) then c_data_addr c else if negb (blen (c_data c) =? 0) then buf_addr else 0.
(** nvme/types.go:459-465 *)
Definition passthru_data_addr (c : admin_cmd) (buf_addr : N) : res N :=
  if negb (c_data_addr c =? 0) then Ok (c_data_addr c)
  else match c_data c with [] => Panic | _ => Ok buf_addr end.

(** The argument points at DataBuffer only when DataAddr is 0. *)
Definition passed_buffer (c : admin_cmd) : bytes := if negb (c_data_addr c =? 0) then [] else c_data c.

(** The memory behind DataBuffer holds [b]. *)
Definition set_c_data (c : admin_cmd) (b : bytes) : admin_cmd :=
  {| c_opcode := c_opcode c; c_flags := c_flags c; c_rsvd1 := c_rsvd1 c; c_nsid := c_nsid c; c_cdw2 := c_cdw2 c; c_cdw3 := c_cdw3 c;
     c_metadata := c_metadata c; c_metadata_len := c_metadata_len c; c_data_len := c_data_len c; c_cdw10 := c_cdw10 c;
     c_cdw11 := c_cdw11 c; c_cdw12 := c_cdw12 c; c_cdw13 := c_cdw13 c; c_cdw14 := c_cdw14 c; c_cdw15 := c_cdw15 c;
     c_timeout_ms := c_timeout_ms c; c_result := c_result c; c_data_addr := c_data_addr c; c_data := b |}.

(** nvme_driver.go:77-99.  Result: error, and the caller's command afterwards; the argument structure is a local variable and
    is not copied back. *)
Definition nv_admin (K : nv_kern) (h : nv_hist) (fd : N) (c : admin_cmd) (buf_addr : N) : nv_hist * (option err * admin_cmd) :=
  let arg := passthru_mem (c_opcode c) (c_flags c) (c_rsvd1 c) (c_nsid c) (c_cdw2 c) (c_cdw3 c) (c_metadata c)
               (admin_data_addr c buf_addr) (c_metadata_len c) (c_data_len c) (c_cdw10 c) (c_cdw11 c) (c_cdw12 c) (c_cdw13 c)
               (c_cdw14 c) (c_cdw15 c) (c_timeout_ms c) (c_result c) in
  let '(h1, (e, (_, b))) := nv_ioctl K h {| nc_fd := fd; nc_req := NVME_IOCTL_ADMIN_CMD; nc_arg := arg; nc_buf := passed_buffer c |} in
  (h1, (e, if negb (c_data_addr c =? 0) then c else set_c_data c b)).

(** nvme_driver.go:101-122: as above without the assignment of DataLen, and with the other GetDataAddr *)
Definition nv_io_passthru (K : nv_kern) (h : nv_hist) (fd : N) (c : admin_cmd) (buf_addr : N) : nv_hist * res (option err * admin_cmd) :=
  match passthru_data_addr c buf_addr with
  | Ok addr =>
    let arg := passthru_mem (c_opcode c) (c_flags c) (c_rsvd1 c) (c_nsid c) (c_cdw2 c) (c_cdw3 c) (c_metadata c)
                 addr (c_metadata_len c) 0 (c_cdw10 c) (c_cdw11 c) (c_cdw12 c) (c_cdw13 c)
                 (c_cdw14 c) (c_cdw15 c) (c_timeout_ms c) (c_result c) in
    let '(h1, (e, (_, b))) := nv_ioctl K h {| nc_fd := fd; nc_req := NVME_IOCTL_IO_CMD; nc_arg := arg; nc_buf := passed_buffer c |} in
    (h1, Ok (e, if negb (c_data_addr c =? 0) then c else set_c_data c b))
  | Err x => (h, Err x)
  | Panic => (h, Panic)
  | Fuel => (h, Fuel)
  end.

(** nvme/types.go:239-252 UserIo *)
Record user_io := {
  u_opcode : N; u_flags : N; u_control : N; u_nblocks : N; u_rsvd : N; u_metadata : N; u_addr : N; u_slba : N; u_dsmgmt : N;
  u_reftag : N; u_apptag : N; u_appmask : N
}.
(** nvme_driver.go:124-140; the memory at u_addr belongs to the caller and is not modelled *)
Definition nv_io (K : nv_kern) (h : nv_hist) (fd : N) (u : user_io) : nv_hist * option err :=
  let arg := user_io_mem (u_opcode u) (u_flags u) (u_control u) (u_nblocks u) (u_rsvd u) (u_metadata u) (u_addr u) (u_slba u)
               (u_dsmgmt u) (u_reftag u) (u_apptag u) (u_appmask u) in
  let h1 := h ++ [{| nc_fd := fd; nc_req := NVME_IOCTL_SUBMIT_IO; nc_arg := arg; nc_buf := [] |}] in
  (h1, ioctl_result (na_errno (K h1)) (na_ret (K h1))).

(** nvme_driver.go:54-75 *)
Definition identify_cmd : admin_cmd :=
  {| c_opcode := 0x06; c_flags := 0; c_rsvd1 := 0; c_nsid := 0; c_cdw2 := 0; c_cdw3 := 0; c_metadata := 0; c_metadata_len := 0;
     c_data_len := 4096; c_cdw10 := 1; c_cdw11 := 0; c_cdw12 := 0; c_cdw13 := 0; c_cdw14 := 0; c_cdw15 := 0; c_timeout_ms := 0;
     c_result := 0; c_data_addr := 0; c_data := zeros 4096 |}.
(** nvme_driver.go:37-52 (and 54-75): identity of the new handle *)
Definition nv_open (K : nv_kern) (h : nv_hist) (fd : N) (buf_addr : N) : nv_hist * res bytes :=
  let '(h1, (e, c)) := nv_admin K h fd identify_cmd buf_addr in
  let identity := c_data c in
  match e with
  | Some x => (h1, Err x)
  | None => if negb (blen identity =? 4096) then (h1, Err (EFmt "invalid identity size: %d" (blen identity))) else (h1, Ok identity)
  end.

(** nvme_driver.go:166-168 *)
Definition nv_security (h : nv_hist) (buffer : bytes) : nv_hist * (option err * bytes) := (h, (Some (EMsg "not supported"), buffer)).

(** ---- LinuxNvmeDriverHandle as the driver below a drive handle ---- *)
(** One driver call executed against the kernel: new kernel history, error, and the contents left in the call's buffer.
    [A] gives the addresses of buffers.  GetDrivingType, GetDriverName, GetIdentity (nvme_driver.go:142-160) make no ioctl;
    DoTaskFileCmd does not exist on this driver; a log page request runs common/nvme/default.go over DoNvmeAdminPassthru. *)
Fixpoint nv_admins (K : nv_kern) (fd : N) (A : nv_hist -> N) (kh : nv_hist) (cs : dhist) : nv_hist * (option err * bytes) :=
  match cs with
  | [] => (kh, (None, []))
  | c :: rest =>
    let r := match c with
             | CAdmin cmd => let '(k1, (e, cmd')) := nv_admin K kh fd cmd (A kh) in (k1, (e, c_data cmd'))
             | _ => (kh, (None, [])) end in
    match rest with [] => r | _ => nv_admins K fd A (fst r) rest end
  end.
(** The driver restricted to admin commands, started in kernel history [kh]. *)
Definition nv_admin_drv (K : nv_kern) (fd : N) (A : nv_hist -> N) (kh : nv_hist) : drv :=
  {| v_io := fun cs => snd (nv_admins K fd A kh cs); v_tf := fun _ => tf0; v_identity := fun _ => []; v_log := fun _ => ([], None);
     v_type := fun _ => 0; v_name := fun _ => [] |}.
Definition nv_log_page (K : nv_kern) (fd : N) (A : nv_hist -> N) (kh : nv_hist) (nsid logId : N) (rae : bool) (size : Z)
  : nv_hist * res (bytes * option err) :=
  let '(cs, r) := nvme_get_log_page_by_admin_passthru (nv_admin_drv K fd A kh) [] nsid logId rae size in
  (fst (nv_admins K fd A kh cs), r).
Definition nv_exec (K : nv_kern) (fd : N) (A : nv_hist -> N) (kh : nv_hist) (c : dcall) : nv_hist * (option err * bytes) :=
  match c with
  | CSec _ _ _ _ buffer _ => nv_security kh buffer
  | CAdmin cmd => let '(k1, (e, cmd')) := nv_admin K kh fd cmd (A kh) in (k1, (e, c_data cmd'))
  | CLogPage nsid logId rae size => (fst (nv_log_page K fd A kh nsid logId rae size), (None, []))
  | _ => (kh, (None, []))
  end.
Definition nv_replay (K : nv_kern) (fd : N) (A : nv_hist -> N) (kh : nv_hist) (cs : dhist) : nv_hist :=
  fold_left (fun k c => fst (nv_exec K fd A k c)) cs kh.
Definition last_call (cs : dhist) : option (dhist * dcall) :=
  match rev cs with [] => None | c :: r => Some (rev r, c) end.
(** nvme_driver.go:142-168; [identity] was read at open in kernel history [kh].  A panic inside NvmeGetLogPage is outside this
    interface (negative sizes only). *)
Definition nv_drv (K : nv_kern) (fd : N) (A : nv_hist -> N) (kh : nv_hist) (identity : bytes) : drv :=
  {| v_io := fun cs => match last_call cs with Some (before, c) => snd (nv_exec K fd A (nv_replay K fd A kh before) c) | None => (None, []) end;
     v_tf := fun _ => tf0;
     v_identity := fun _ => identity;
     v_log := fun cs => match last_call cs with
                        | Some (before, CLogPage nsid logId rae size) =>
                            match snd (nv_log_page K fd A (nv_replay K fd A kh before) nsid logId rae size) with
                            | Ok x => x | _ => ([], None) end
                        | _ => ([], None) end;
     v_type := fun _ => 2;
     v_name := fun _ => [76; 105; 110; 117; 120; 78; 118; 109; 101; 68; 114; 105; 118; 101; 114] |}.   (* "LinuxNvmeDriver" *)
