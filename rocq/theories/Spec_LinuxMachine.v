(** Vocabulary of C151-C153: which descriptor an action uses, and which path a descriptor is open on. *)
From Verif Require Import Base M_DriveHandle M_SgDriver M_NvmeLinux M_LinuxFactory M_LinuxMachine Spec_Inspect.

(** Programs that only look: EnumDrives, EnumVolumes, OpenByPath, and the looking calls of Spec_Inspect on handles. *)
Definition looks (o : gop) : Prop := match o with GOn _ c => inspects c | GOpen _ | GEnum | GVolumes => True end.

(** The descriptor an action of the program is performed on: ioctls, reading the basic information, probing, closing. *)
Definition acts_on (e : gev) : option N :=
  match e with
  | GNvme c => Some (nc_fd c)
  | GSg fd _ => Some fd
  | GFile (LBasic fd _) | GFile (LProbe _ fd) | GFile (LClose fd) => Some fd
  | GFile _ => None
  end.
(** After history [g], descriptor [fd] is open on [path]: an open of [path] returned it and it has not been closed since. *)
Definition open_on (M : machine) (g : ghist) (fd : N) (path : bytes) : Prop :=
  exists g1 g2, g = g1 ++ GFile (LOpen path) :: g2 /\ m_open M (g1 ++ [GFile (LOpen path)]) = inr fd /\ ~ In (GFile (LClose fd)) g2.
(** POSIX open: a descriptor that is returned was not open. *)
Definition fresh_descriptors (M : machine) : Prop :=
  forall g path fd other, m_open M (g ++ [GFile (LOpen path)]) = inr fd -> ~ open_on M g fd other.
(** The drives a call may touch. *)
Definition may_touch (s : gstate) (o : gop) (path : bytes) : Prop :=
  match o with
  | GOpen p => path = p
  | GEnum => exists name, path = dev_path name
  | GVolumes => True
  | GOn i _ => exists x, nth_error (st_handles s) i = Some x /\ path = gh_path x
  end.
(** The paths of a program's handles, in order. *)
Definition paths (s : gstate) : list bytes := map gh_path (st_handles s).
