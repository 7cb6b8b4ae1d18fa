(** Non-vacuity for C163: the limits are reached. *)
From Verif Require Import Base M_Buffer M_Struc M_Layouts M_Ata M_TcgDevice M_DriveHandle M_Cdb M_SgDriver M_SgHandle M_NvmeLinux M_Strings M_LinuxInfo M_LinuxFactory M_LinuxVolume
  M_LinuxMachine Prop_LinuxFactory Spec_Work Prop_Work.

(** A drive that accepts the identify commands - through SG_IO at the second attempt - and refuses everything else. *)
Definition exwk_commands (g : ghist) : nat := List.length (filter is_command g).
Definition exwk : machine :=
  {| m_open := fun _ => inr 3;
     m_basic := fun _ => w_basic refusing []; m_ids := fun _ => w_ids refusing []; m_dir := fun _ => inr [str "nvme0n1"];
     m_mode := fun _ => Some 0x6000; m_mounts := fun _ => inr {| mt_text := str "/dev/nvme0n1p1 / ext4" ++ [10] ++ str "/dev/nvme0n1p2 /home ext4"; mt_error := None |};
     m_nvme := fun g => {| na_errno := if (exwk_commands g =? 1)%nat then 0 else 5; na_ret := 0; na_result := 0; na_in := [] |};
     m_sg := fun g => {| an_errno := if (exwk_commands g =? 4)%nat then 0 else 5; an_ret := 0; an_in := []; an_sense := []; an_status := None |};
     m_addr := fun _ => 4096 |}.
(** The same without SG_IO. *)
Definition exwk_nvme : machine :=
  {| m_open := m_open exwk; m_basic := m_basic exwk; m_ids := m_ids exwk; m_dir := m_dir exwk; m_mode := m_mode exwk; m_mounts := m_mounts exwk;
     m_nvme := m_nvme exwk; m_sg := fun _ => {| an_errno := 5; an_ret := 0; an_in := []; an_sense := []; an_status := None |}; m_addr := m_addr exwk |}.
(** Commands and actions of call [o] after [ops]. *)
Definition exwk_work (M : machine) (ops : list gop) (o : gop) : nat * nat :=
  let s := grun M ops in let es := skipn (List.length (st_hist s)) (st_hist (gstep M s o)) in (commands es, List.length es).
Definition exwk_limits (M : machine) (ops : list gop) (o : gop) : nat * nat := (command_limit M (grun M ops) o, action_limit M (grun M ops) o).
Definition exwk_cases : list (machine * list gop * gop) :=
  let p := str "/dev/nvme0n1" in
  [(exwk, [], GOpen p); (exwk, [], GEnum); (exwk, [], GVolumes);
   (exwk, [GOpen p], GOn 0 HDiscovery); (exwk, [GOpen p], GOn 0 HInit); (exwk, [GOpen p], GOn 0 (HSec true false 1 1 [0] 3)); (exwk, [GOpen p], GOn 0 (HTask true false tf0 [0] 3));
   (exwk, [GOpen p], GOn 0 HClose);
   (exwk_nvme, [GOpen p], GOn 0 HDiscovery); (exwk_nvme, [GOpen p], GOn 0 (HSec false false 1 1 [0] 3)); (exwk_nvme, [GOpen p], GOn 0 (HLog 1 2 false 4097))].
(** Every limit is reached, both the commands and the actions. *)
Example C163_limits_reached : map (fun '(M, ops, o) => exwk_work M ops o) exwk_cases = map (fun '(M, ops, o) => exwk_limits M ops o) exwk_cases
  /\ map (fun '(M, ops, o) => exwk_work M ops o) exwk_cases = [(8, 13); (8, 16); (0, 5); (4, 4); (4, 4); (4, 4); (2, 2); (0, 1); (1, 1); (1, 1); (2, 2)]%nat.
Proof. vm_compute. auto. Qed.
