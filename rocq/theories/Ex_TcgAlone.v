(** C187 on a concrete Linux machine: two NVMe drives; while the client reverts the second one, the program sends packets to the first
    one, reads its log page and lists the drives. *)
From Verif Require Import Base M_Buffer M_Struc M_Ata M_TcgToken M_TcgCommand M_TcgDevice M_TcgSession M_TcgProgram M_DriveHandle M_Cdb M_SgDriver M_SgHandle M_NvmeLinux M_Strings M_LinuxInfo M_LinuxFactory M_LinuxVolume
  M_LinuxSystem M_LinuxMachine M_TcgOnDrive Prop_LinuxFactory Spec_LinuxMachine Spec_Alone Prop_Alone Spec_NvmeLinux Spec_TcgOnDrive Spec_TcgSession P_TcgSession
  Ex_TcgSession Ex_TcgOnDrive Ex_LinuxSystem Ex_Challenge Ex_Conform Ex_Alone Spec_TcgAlone P_TcgAlone Prop_TcgAlone.

(** The answer of a drive to a command: IDENTIFY, Level 0 discovery, and the answer of Ex_Conform's drive to the last packet sent to the
    same descriptor. *)
Definition extc_calls (g : ghist) : nv_hist := flat_map (fun e => match e with GNvme c => [c] | _ => [] end) g.
Definition extc_nvme (g : ghist) : nv_ans :=
  {| na_errno := 0; na_ret := 0; na_result := 0;
     na_in := match rev (extc_calls g) with
              | c :: _ => let u := read_passthru (nc_arg c) in
                  if up_opcode u =? 0x06 then exy_identify else if negb (up_opcode u =? 0x82) then []
                  else if up_cdw10 u =? 0x01000100 then exy_level0 else excf_answer (last (nvme_received (filter (fun k => nc_fd k =? nc_fd c) (extc_calls g))) [])
              | [] => [] end |}.
Definition extc : machine :=
  {| m_open := m_open exal; m_basic := m_basic exal; m_ids := m_ids exal; m_dir := m_dir exal; m_mode := m_mode exal; m_mounts := m_mounts exal;
     m_nvme := extc_nvme; m_sg := m_sg exal; m_addr := m_addr exal |}.
Definition extc_before : list gop := [GOpen (str "/dev/nvme0n1")].
Definition extc_meanwhile (t : hist) : list gop := [GOn 0 (HSec true false 1 0x1004 (N.of_nat (List.length t) :: zeros 511) 5); GOn 0 (HLog 1 2 false 8); GEnum].
Definition extc_opened : gstate := gstep extc (grun extc extc_before) (GOpen (str "/dev/nvme1n1")).
Definition extc_prog (pw : bytes) : list tcall := [TRevert pw true false; TPassword].
Definition extc_outcome (pw : bytes) := trun (program_env (replies_on extc extc_opened 1) (GOn 1) extc_meanwhile slept exo_kdf (fun _ => 0) 500) ex_dev [] [] (extc_prog pw).
Example extc_succeeds : List.length (st_handles extc_opened) = S (List.length (st_handles (grun extc extc_before))).
Proof. vm_compute. reflexivity. Qed.
Example extc_apart : forall t, calls_on 1 (extc_meanwhile t) = [].
Proof. intros t. reflexivity. Qed.
(** The right PSID: reverted, and the MSID is read; a wrong one: refused.  The dialogue is 4 and 3 packets long, and the program it is part
    of sends as many packets, log pages and listings elsewhere. *)
Example extc_right : snd (extc_outcome excf_psid) = [Ok tt; Ok tt].
Proof. vm_compute. reflexivity. Qed.
Example extc_wrong : snd (extc_outcome [80; 83; 73; 69]) = [Err (ETcg 1); Ok tt].
Proof. vm_compute. reflexivity. Qed.
Example extc_busy : List.length (hsecs (snd (fst (extc_outcome excf_psid)))) = 8%nat
  /\ List.length (program_of (GOn 1) extc_meanwhile [] (snd (fst (extc_outcome excf_psid)))) = 32%nat.
Proof. vm_compute. split; reflexivity. Qed.

Lemma extc_general M ops1 path meanwhile dev clock kdf heap fuel prog opened i : opened = gstep M (grun M ops1) (GOpen path) -> i = List.length (st_handles (grun M ops1)) ->
  List.length (st_handles opened) = S (List.length (st_handles (grun M ops1))) -> (forall t, calls_on i (meanwhile t) = []) ->
  let outcome := trun (program_env (replies_on M opened i) (GOn i) meanwhile clock kdf heap fuel) dev [] [] prog in
  exists S h y, open_by_path (linux S) [] path = (h, Ok y) /\ answers_of M (l_fd y) S
    /\ trun (drive_env (match l_drv y with Some V => V | None => no_drv end) (l_dh y) (l_calls y) clock kdf heap fuel) dev [] [] prog = outcome.
Proof.
  intros -> -> L Mw. destruct (C187_linux M ops1 path meanwhile dev clock kdf heap fuel prog L Mw) as (x & S & h & y & cs & _ & B & C & _ & _ & _ & (E & _) & _).
  exists S, h, y. split; [exact B|]. split; [exact C|exact E].
Qed.
Lemma extc_index : 1%nat = List.length (st_handles (grun extc extc_before)).
Proof. vm_compute. reflexivity. Qed.
(** So the second drive, alone, is reverted too by the same calls, and refuses the wrong password too. *)
Theorem ex_C187 pw : exists S h y, open_by_path (linux S) [] (str "/dev/nvme1n1") = (h, Ok y) /\ answers_of extc (l_fd y) S
  /\ trun (drive_env (match l_drv y with Some V => V | None => no_drv end) (l_dh y) (l_calls y) slept exo_kdf (fun _ => 0) 500) ex_dev [] [] (extc_prog pw) = extc_outcome pw.
Proof.
  unfold extc_outcome. apply (extc_general extc extc_before).
  - reflexivity.
  - exact extc_index.
  - exact extc_succeeds.
  - exact extc_apart.
Qed.
Print Assumptions ex_C187.
