(** Vocabulary for comparing runs of the Linux factory on an unchanged machine. *)
From Verif Require Import Base M_DriveHandle M_SgDriver M_NvmeLinux M_Strings M_LinuxInfo M_LinuxFactory M_LinuxSystem Spec_LinuxFactory.

(** What a controller can see of an NVMe ioctl: neither the descriptor number nor the buffer's address (bytes 24..31 of the argument). *)
Definition nv_seen (c : nv_call) : N * (bytes * bytes) * bytes := (nc_req c, (firstn 24 (nc_arg c), skipn 32 (nc_arg c)), nc_buf c).
Definition nv_view := list (N * (bytes * bytes) * bytes).

(** A machine that does not change: what each path is, independently of when and through which descriptor it is asked. *)
Record machine := {
  mc_dir : err + list bytes;                    (* the names under /sys/block *)
  mc_mode : bytes -> option N;                  (* stat *)
  mc_open : bytes -> option err;                (* None: the path can be opened *)
  mc_basic : bytes -> disk_answers;
  mc_ids : bytes -> id_answers;
  mc_nvme : bytes -> nv_view -> nv_ans;         (* the controller: a function of what it was sent since the driver opened it *)
  mc_sg : bytes -> sg_hist -> sg_ans
}.

(** Descriptor [fd] was opened for [path] and has neither been closed nor given out again. *)
Inductive refers (W : world) : lhist -> N -> bytes -> Prop :=
| refers_new h path fd : w_open W (h ++ [LOpen path]) = inr fd -> refers W (h ++ [LOpen path]) fd path
| refers_old h e fd path : refers W h fd path -> e <> LClose fd -> (forall q, e = LOpen q -> w_open W (h ++ [e]) <> inr fd) ->
    refers W (h ++ [e]) fd path.

(** The system [S] is the unchanging machine [M]; descriptor numbers and addresses are free, except that the buffers handed to SG_IO while a drive is
    opened are 512-aligned, as NewAlignedBuffer makes them (plat_linux/sg_driver.go:66, common/drive_handle.go:176). *)
Definition steady (S : system) (M : machine) : Prop :=
  let W := sy_world S in
  (forall h, w_dir W (h ++ [LReadDir]) = mc_dir M)
  /\ (forall h path, w_mode W (h ++ [LStat path]) = mc_mode M path)
  /\ (forall h path, match mc_open M path with Some e => w_open W (h ++ [LOpen path]) = inl e | None => exists fd, w_open W (h ++ [LOpen path]) = inr fd end)
  /\ (forall h fd path, refers W h fd path -> w_basic W (h ++ [LBasic fd path]) = mc_basic M path)
  /\ (forall h path, w_ids W (h ++ [LIds path]) = mc_ids M path)
  /\ (forall h n fd path, refers W h fd path -> forall l, sy_nvme S (h ++ [LProbe n fd]) l = mc_nvme M path (map nv_seen l))
  /\ (forall h n fd path, refers W h fd path -> forall l, sy_sg S (h ++ [LProbe n fd]) l = mc_sg M path l)
  /\ (forall h l, sy_sg_addr S h l mod 512 = 0).

(** One path is the same device on both machines. *)
Definition same_device (M M' : machine) (path : bytes) : Prop :=
  mc_mode M path = mc_mode M' path /\ mc_open M path = mc_open M' path /\ mc_basic M path = mc_basic M' path /\ mc_ids M path = mc_ids M' path
  /\ (forall l, mc_nvme M path l = mc_nvme M' path l) /\ (forall l, mc_sg M path l = mc_sg M' path l).

(** Everything a DriveInfo says (common/types.go:59-95). *)
Definition report (x : handle) :=
  (p_info (l_dh x), (l_driving x, l_driver_name x, l_removable x), (l_style x, l_gpt x, l_mbr x, l_capacity x, l_vendor x)).
(** The outcome of a call, of which only [f] is looked at. *)
Definition seen {A B} (f : A -> B) (r : res A) : res B := match r with Ok x => Ok (f x) | Err e => Err e | Panic => Panic | Fuel => Fuel end.
(** What is listed, given what became of opening each device: those that could be opened, unless the program ended. *)
Fixpoint collect {A} (rs : list (res A)) : res (list A) :=
  match rs with
  | [] => Ok []
  | Ok x :: t => match collect t with Ok xs => Ok (x :: xs) | r => r end
  | Err _ :: t => collect t
  | Panic :: _ => Panic
  | Fuel :: _ => Fuel
  end.
(** A name under /sys/block that EnumDrives tries to open: no "loop" or "sr" in it, and a block device. *)
Definition candidate (M : machine) (name : bytes) : Prop :=
  ~ occurs (str "loop") name /\ ~ occurs (str "sr") name /\ exists m, mc_mode M (str "/dev/" ++ name) = Some m /\ block_mode m.
