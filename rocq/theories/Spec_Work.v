(** Vocabulary of C163: how much a call may do. *)
From Verif Require Import Base M_DriveHandle M_SgDriver M_NvmeLinux M_LinuxFactory M_LinuxVolume M_LinuxMachine.

(** Commands sent to drives: the ioctls. *)
Definition is_command (e : gev) : bool := match e with GFile _ => false | _ => true end.
Definition commands (g : ghist) : nat := List.length (filter is_command g).

(** At most so many commands for one call on a drive handle with this driver.  NVMe log pages: one per 4096 bytes begun. *)
Definition call_limit (k : lkind) (o : hop) : nat :=
  match k, o with
  | _, (HClose | HType | HName) => 0
  | KNvme, (HInit | HDiscovery | HSec _ _ _ _ _ _) => 1
  | KSg, (HInit | HDiscovery | HSec _ _ _ _ _ _) => 4
  | KNvme, HTask _ _ _ _ _ => 0
  | KSg, HTask _ _ _ _ _ => 2
  | KNvme, HLog _ _ _ size => Z.to_nat ((size + 4095) / 4096)
  | KSg, HLog _ _ _ _ => 0
  end.
(** The names the next EnumDrives would find in /sys/block, and the lines the next EnumVolumes would find in /proc/mounts. *)
Definition names_now (M : machine) (g : ghist) : nat := match m_dir M (g ++ [GFile LReadDir]) with inr names => List.length names | inl _ => 0 end.
Definition lines_now (M : machine) (g : ghist) : nat :=
  match m_mounts M (g ++ [GFile LMounts]) with inr m => List.length (filter (N.eqb 10) (mt_text m)) + 1 | inl _ => 0 end.
(** Commands, and all actions together, of one call of a program in state [s]. *)
Definition command_limit (M : machine) (s : gstate) (o : gop) : nat :=
  match o with
  | GOpen _ => 8
  | GEnum => 8 * names_now M (st_hist s)
  | GVolumes => 0
  | GOn i c => match nth_error (st_handles s) i with
               | Some x => match gh_dev x with Some d => call_limit (d_kind d) c | None => 0 end
               | None => 0
               end
  end.
Definition action_limit (M : machine) (s : gstate) (o : gop) : nat :=
  match o with
  | GOpen _ => 13
  | GEnum => 1 + 15 * names_now M (st_hist s)
  | GVolumes => 1 + 2 * lines_now M (st_hist s)
  | GOn i HClose => 1
  | GOn _ _ => command_limit M s o
  end.
