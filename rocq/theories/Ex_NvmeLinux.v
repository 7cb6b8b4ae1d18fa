(** Non-vacuity for C67-C74. *)
From Verif Require Import Base M_Buffer M_Ata M_TcgDevice M_DriveHandle M_Cdb M_SgDriver M_SgHandle M_NvmeLinux Spec_Drive Spec_Sg Spec_NvmeLinux
  P_Sg P_NvmeLinux Prop_Sg Prop_Drive Prop_NvmeLinux Prop_SgHandle Ex_Drive Ex_Sg.

Definition exn_ans (k : N) (d : bytes) : nv_ans := {| na_errno := k; na_ret := 0; na_in := d; na_result := 7 |}.
Definition exn_kern (l : list nv_ans) : nv_kern := fun h => nth (List.length h - 1) l (exn_ans 5 []).

(** C68: GET FEATURES style command with a buffer; the device returns 2 bytes; EINVAL *)
Definition exn_cmd (op len : N) (d : bytes) : admin_cmd :=
  {| c_opcode := op; c_flags := 0; c_rsvd1 := 0; c_nsid := 1; c_cdw2 := 0; c_cdw3 := 0; c_metadata := 0; c_metadata_len := 0;
     c_data_len := len; c_cdw10 := 0x11; c_cdw11 := 0; c_cdw12 := 0; c_cdw13 := 0; c_cdw14 := 0; c_cdw15 := 0; c_timeout_ms := 60000;
     c_result := 0; c_data_addr := 0; c_data := d |}.
Example ex_C68 : wf_cmd (exn_cmd 0x0A 4 [9; 9; 9; 9]) /\
  (let '(h, (e, c')) := nv_admin (exn_kern [exn_ans 0 [1; 2]]) [] 5 (exn_cmd 0x0A 4 [9; 9; 9; 9]) 0x7000 in
   e = None /\ c_data c' = [1; 2; 9; 9] /\ c_result c' = 0 /\ List.length h = 1%nat) /\
  (let '(_, (e, c')) := nv_admin (exn_kern [exn_ans 22 []]) [] 5 (exn_cmd 0x09 4 [9; 9; 9; 9]) 0x7000 in e = Some (errno 22) /\ c_data c' = [9; 9; 9; 9]).
Proof. split; [unfold wf_cmd; cbn; repeat split; reflexivity|]. vm_compute. auto 10. Qed.
(** C69: both cases occur *)
Example ex_C69 : snd (nv_io_passthru (exn_kern []) [] 5 (exn_cmd 0x02 0 []) 0) = Panic
  /\ map nc_arg (fst (nv_io_passthru (exn_kern [exn_ans 0 [1; 2; 3; 4]]) [] 5 (exn_cmd 0x02 4 [0; 0; 0; 0]) 0x7000)) <> [].
Proof. split; [reflexivity|]. vm_compute. discriminate. Qed.
(** C70 *)
Example ex_C70 : wf_user_io {| u_opcode := 2; u_flags := 0; u_control := 0; u_nblocks := 7; u_rsvd := 0; u_metadata := 0; u_addr := 0x7000;
  u_slba := 0x123456789; u_dsmgmt := 0; u_reftag := 0; u_apptag := 0; u_appmask := 0 |}.
Proof. unfold wf_user_io; cbn; repeat split; reflexivity. Qed.
(** C71: an identify answer and a refusal *)
Example ex_C71 : (exists h id, nv_open (exn_kern [exn_ans 0 [0x4d; 0x14]]) [] 5 0x7000 = (h, Ok id) /\ firstn 3 id = [0x4d; 0x14; 0])
  /\ snd (nv_open (exn_kern [exn_ans 25 []]) [] 5 0x7000) = Err (errno 25).
Proof. split; [eexists _, _; split; vm_compute; reflexivity|vm_compute; reflexivity]. Qed.
(** C72: a security receive through a drive handle over the NVMe driver *)
Definition exn_handle : dh := {| p_dh := Some {| is_ata := false; is_nvme := true |}; p_info := new_info [] |}.
Example ex_C72 : over_nvme exn_handle /\
  let V := nv_drv (exn_kern [exn_ans 0 [1; 2; 3]]) 5 (fun _ => 0x7000) [] [] in
  let '(h, (e, out)) := security_command V exn_handle [] false false 1 0x07fe [0; 0; 0; 0] 3 in
  e = None /\ out = [1; 2; 3; 0] /\ List.length (nv_replay (exn_kern [exn_ans 0 [1; 2; 3]]) 5 (fun _ => 0x7000) [] h) = 1%nat.
Proof. split; [reflexivity|]. vm_compute. auto. Qed.
(** C73: an 8 KiB log page whose first attempt fails *)
Example ex_C73 : exists kh d, nv_log_page (exn_kern [exn_ans 5 []; exn_ans 0 [1; 2; 3]]) 5 (fun _ => 0x7000) [] 1 2 false 8192%Z = (kh, Ok (d, None))
  /\ List.length kh = 2%nat /\ firstn 4 d = [1; 2; 3; 0].
Proof. eexists _, _. split; [vm_compute; reflexivity|]. split; vm_compute; reflexivity. Qed.
(** C74: SECURITY PROTOCOL OUT fails twice, TRUSTED SEND is accepted, and carries zeros *)
Definition exn_sg_handle : dh := {| p_dh := Some {| is_ata := true; is_nvme := false |}; p_info := new_info [] |}.
Definition exn_sg_kern : kern := exs_kern [exs_fail 5 []; exs_fail 5 []; exs_ok [] []].
Example ex_C74 : over_sg exn_sg_handle /\
  let '(h, (e, out)) := security_command (sg_drv exn_sg_kern (fun _ => 4096) [] []) exn_sg_handle [] true false 1 0x07fe [1; 2; 3; 4] 3 in
  e = None /\ out = [0; 0; 0; 0] /\ map sg_mem (sg_replay exn_sg_kern (fun _ => 4096) [] h) = [[1; 2; 3; 4]; []; [0; 0; 0; 0]].
Proof. split; [reflexivity|]. vm_compute. auto. Qed.
