(** Non-vacuity for C171: a machine with one NVMe drive whose partition table can be read. *)
From Verif Require Import Base M_Buffer M_Struc M_Layouts M_Ata M_TcgDevice M_DriveHandle M_Cdb M_SgDriver M_SgHandle M_NvmeLinux M_Strings M_LinuxInfo M_LinuxFactory M_LinuxVolume
  M_LinuxMachine M_BasicCalls Prop_LinuxFactory Spec_Inspect Spec_LinuxMachine P_LinuxMachine Prop_LinuxMachine Ex_LinuxMachine Spec_Ledger P_Ledger Prop_Ledger.

(** Every device opens, each with a number of its own; an MBR disk. *)
Definition exld : machine :=
  {| m_open := fun g => inr (2 + N.of_nat (exlm_opens g));
     m_basic := fun _ => {| da_open := None; da_table := TMbr []; da_readat := fun n => (zeros n, (N.of_nat n, None)); da_ssz := Some 512; da_size := Some 1000204886016; da_geo := None |};
     m_ids := m_ids exlm; m_dir := m_dir exlm; m_mode := m_mode exlm; m_mounts := m_mounts exlm; m_nvme := m_nvme exlm; m_sg := m_sg exlm; m_addr := m_addr exlm |}.
Definition exld_ops : list gop := [GOpen (str "/dev/nvme0n1"); GOn 0 HDiscovery; GEnum; GOpen (str "/dev/nvme1n1"); GOn 0 HClose; GOn 0 HClose; GOn 1 HClose].
Example exld_hypotheses : (forall g, exists fd, m_open exld g = inr fd) /\ forall g, da_open (m_basic exld g) = None.
Proof. split; [intros g; eexists; reflexivity|reflexivity]. Qed.
(** Three devices were opened and three tables read: six descriptors; three came back, no handle is open. *)
Definition exld_sums : list nat :=
  let s := grun exld exld_ops in
  [total_of (obtained exld) [] (st_hist s); total_of (given_back exld) [] (st_hist s); total_of (table_read exld) [] (st_hist s); live_handles s; count opens exld_ops].
Example exld_runs : exld_sums = [6; 3; 3; 0; 2]%nat.
Proof. vm_compute. reflexivity. Qed.
Example exld_at : total_of (obtained exld) [] (st_hist (grun exld exld_ops)) = 6%nat /\ total_of (given_back exld) [] (st_hist (grun exld exld_ops)) = 3%nat /\
  live_handles (grun exld exld_ops) = 0%nat.
Proof. repeat split; vm_compute; reflexivity. Qed.
Example exld_calls : fst (basic_run 3 (str "/dev/sda") (m_basic exld [])) = [BOpenFile (str "/dev/sda"); BIoctl 3 0x1268; BIoctl 3 0x80081272; BIoctl 3 0x301; BReadAt 512].
Proof. reflexivity. Qed.
(** a handle no driver accepted *)
Example exld_driverless : map is_live (st_handles (grun exlm_refusing [GOpen (str "/dev/sda")])) = [false] /\
  total_of (obtained exlm_refusing) [] (st_hist (grun exlm_refusing [GOpen (str "/dev/sda"); GOn 0 HClose])) = 1%nat /\
  total_of (given_back exlm_refusing) [] (st_hist (grun exlm_refusing [GOpen (str "/dev/sda"); GOn 0 HClose])) = 0%nat.
Proof. vm_compute. repeat split. Qed.

(** The guarantee a caller expects, "a program that closes every handle it opened has given back every descriptor", is false: with no
    handle open at the end, every one closed with a driver, descriptors are missing. *)
Theorem C171_all_given_back_refuted : ~ (forall M ops, fresh_descriptors M -> live_handles (grun M ops) = 0%nat ->
  total_of (given_back M) [] (st_hist (grun M ops)) = total_of (obtained M) [] (st_hist (grun M ops))).
Proof.
  intros H. assert (F : fresh_descriptors exld).
  { intros g path fd other E (g1 & g2 & -> & O & _). cbn [m_open exld] in *. injection O as <-. injection E as E. revert E.
    unfold exlm_opens. change (g1 ++ GFile (LOpen other) :: g2) with (g1 ++ [GFile (LOpen other)] ++ g2). rewrite !exlm_filter_app. cbn [filter exlm_is_open List.length]. lia. }
  specialize (H exld exld_ops F). destruct exld_at as (E1 & E2 & E4). rewrite E1, E2 in H. discriminate (H E4).
Qed.
Print Assumptions C171_all_given_back_refuted.
