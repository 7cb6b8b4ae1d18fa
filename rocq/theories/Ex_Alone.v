(** Non-vacuity for C155: two drives used in turn on a machine whose answers depend on everything done so far. *)
From Verif Require Import Base M_Buffer M_Struc M_Layouts M_Ata M_TcgDevice M_DriveHandle M_Cdb M_SgDriver M_SgHandle M_NvmeLinux M_Strings M_LinuxInfo M_LinuxFactory M_LinuxVolume
  M_LinuxMachine Prop_LinuxFactory Spec_LinuxMachine Spec_Alone Prop_Alone.

Definition exal_is_open (e : gev) : bool := match e with GFile (LOpen _) => true | _ => false end.
(** Descriptors 3, 4, ...; every NVMe command succeeds and returns the number of actions on the whole machine so far in its first byte. *)
Definition exal : machine :=
  {| m_open := fun g => inr (2 + N.of_nat (List.length (filter exal_is_open g)));
     m_basic := fun _ => w_basic refusing []; m_ids := fun _ => w_ids refusing []; m_dir := fun _ => inr [str "nvme0n1"]; m_mode := fun _ => Some 0x6000;
     m_mounts := fun _ => inl (EMsg "no /proc");
     m_nvme := fun g => {| na_errno := 0; na_ret := 0; na_result := 0; na_in := [N.of_nat (List.length g) mod 256] |};
     m_sg := fun _ => {| an_errno := 25; an_ret := 0; an_in := []; an_sense := []; an_status := None |};
     m_addr := fun _ => 4096 |}.
Definition exal_before : list gop := [GOpen (str "/dev/nvme0n1"); GOn 0 (HLog 1 2 false 8)].
Definition exal_after : list gop :=
  [GOn 1 (HLog 1 2 false 8); GOn 0 (HLog 1 2 false 8); GOpen (str "/dev/nvme2n1"); GEnum; GOn 1 (HLog 1 2 false 8); GOn 0 HClose; GOn 1 HClose; GOn 1 (HLog 1 2 false 8)].
Definition exal_opened : gstate := gstep exal (grun exal exal_before) (GOpen (str "/dev/nvme1n1")).
Example exal_succeeds : List.length (st_handles exal_opened) = S (List.length (st_handles (grun exal exal_before))).
Proof. vm_compute. reflexivity. Qed.
Example exal_calls : calls_on 1 exal_after = [HLog 1 2 false 8; HLog 1 2 false 8; HClose; HLog 1 2 false 8].
Proof. reflexivity. Qed.
(** The handle's replies: each log page carries what else happened on the machine meanwhile; after Close nothing is returned. *)
Definition exal_data (r : reply) : bytes := firstn 1 (snd (snd r)).
Example exal_replies : map exal_data (replies_on exal exal_opened 1 exal_after) = [[20]; [43]; []; []].
Proof. vm_compute. reflexivity. Qed.
Example exal_sent : List.length (sent_on exal exal_opened 1 exal_after) = 2%nat.
Proof. vm_compute. reflexivity. Qed.

(** The system C155 speaks of cannot always be the machine itself without the rest of the program: what other handles did can change the
    drive's answers. *)
Theorem C155_same_machine_refuted : ~ (forall M path ops, let s := grun M [GOpen path] in List.length (st_handles s) = 1%nat ->
  replies_on M s 0 ops = replies_on M s 0 (map (GOn 0) (calls_on 0 ops))).
Proof.
  intros H. specialize (H exal (str "/dev/nvme0n1") [GEnum; GOn 0 (HLog 1 2 false 8)]). cbv zeta in H.
  assert (L : List.length (st_handles (grun exal [GOpen (str "/dev/nvme0n1")])) = 1%nat) by (vm_compute; reflexivity). specialize (H L).
  apply (f_equal (map exal_data)) in H. vm_compute in H. discriminate H.
Qed.
Print Assumptions C155_same_machine_refuted.

(** EnumDrives in the middle of that program (C156): it lists one drive. *)
Example exal_lists : match snd (genum_drives exal (st_hist exal_opened)) with Ok xs => map gh_driving xs | _ => [] end = [2].
Proof. vm_compute. reflexivity. Qed.
