(** Non-vacuity for C57-C66: concrete kernels and devices. *)
From Verif Require Import Base M_Buffer M_Ata M_TcgDevice M_Cdb M_SgDriver Spec_Sg P_Sg Prop_Sg.

(** A kernel that answers the n-th request (0-based) with the n-th answer. *)
Definition exs_ok (d s : bytes) : sg_ans := {| an_errno := 0; an_ret := 0; an_in := d; an_sense := s; an_status := Some 0 |}.
Definition exs_fail (k : N) (d : bytes) : sg_ans := {| an_errno := k; an_ret := 0; an_in := d; an_sense := []; an_status := None |}.
Definition exs_kern (l : list sg_ans) : kern := fun h => nth (List.length h - 1) l (exs_fail 5 []).

(** C57: the witnesses are ordinary CDB bytes *)
Example ex_C57 : let c := {| b01 := 0xEB; b02 := 0x2E |} in
  wf_cdb c /\ get_protocol c = 5 /\ get_t_length c = 2 /\ is_byte_block c = true /\ is_t_dir c = true /\ is_ck_cond c = true
  /\ b01 (set_protocol c 0x1C) = 0xF9.
Proof. vm_compute. auto 10. Qed.
Example ex_C57_sense : let s := [0xF0; 0; 0xC5] ++ zeros 15 in
  wf s /\ get_error_code s = 0x70 /\ is_valid s = true /\ get_sense_key s = 5 /\ is_incorrect_length s = false /\ is_end_of_media s = true /\ is_file_mark s = true.
Proof.
  cbv zeta. split; [|vm_compute; auto 10]. unfold zeros. cbn [repeat app].
  repeat (apply wf_cons; split; [reflexivity|]). apply wf_nil.
Qed.

(** A READ DMA EXT of 16 sectors at LBA 0x060504030201 *)
Definition exs_tf48 : tf :=
  {| t_dev := 0x40; t_command := 0x25; t_error := 0; t_status := 0; t_lba48 := 1;
     t_lob := {| g_feat := 0; g_nsect := 16; g_lbal := 1; g_lbam := 2; g_lbah := 3 |};
     t_hob := {| g_feat := 0; g_nsect := 0; g_lbal := 4; g_lbam := 5; g_lbah := 6 |} |}.
Example ex_C58 : wf_tf exs_tf48 /\
  let '(h, r) := sg_task_file (exs_kern [exs_ok [7; 8; 9] []]) [] false true exs_tf48 (Some (zeros 6)) 513 10%Z in
  map sg_cdb h = [[0x85; 0x0D; 0x0E; 0; 0; 0; 16; 4; 1; 5; 2; 6; 3; 0x40; 0x25; 0]]
  /\ map sg_pack_id h = [0x04030201%Z] /\ map sg_where h = [XBounce]
  /\ exists t', r = Ok (None, (t', Some [7; 8; 9; 0; 0; 0])).
Proof. split; [unfold wf_tf, wf_regs; cbn; repeat split; reflexivity|]. vm_compute. eauto 10. Qed.

(** C59: alignment decides where the missing tail comes from *)
Example ex_C59 :
  (exists h t', sg_task_file (exs_kern [exs_ok [7] []]) [] false false identify_tf (Some [1; 2; 3]) 1024 3%Z = (h, Ok (None, (t', Some [7; 2; 3]))))
  /\ (exists h t', sg_task_file (exs_kern [exs_ok [7] []]) [] false false identify_tf (Some [1; 2; 3]) 1025 3%Z = (h, Ok (None, (t', Some [7; 0; 0])))).
Proof. split; eexists _, _; vm_compute; reflexivity. Qed.

(** C60: WRITE with data [1;2;3] *)
Example ex_C60 : exists h t', sg_task_file (exs_kern [exs_ok [] []]) [] true false identify_tf (Some [1; 2; 3]) 8 3%Z = (h, Ok (None, (t', Some [0; 0; 0])))
  /\ map sg_mem h = [[0; 0; 0]].
Proof. eexists _, _. split; vm_compute; reflexivity. Qed.

(** C61: EIO, then success; EIO, then ENOMEM *)
Example ex_C61 :
  (exists h t' d, sg_task_file (exs_kern [exs_fail 5 []; exs_ok [] []]) [] false false identify_tf (Some [1; 2; 3]) 8 3%Z = (h, Ok (None, (t', d))) /\ List.length h = 2%nat)
  /\ (exists h t' d, sg_task_file (exs_kern [exs_fail 5 []; exs_fail 12 []]) [] false false identify_tf (Some [1; 2; 3]) 8 3%Z = (h, Ok (Some (errno 12), (t', d))) /\ List.length h = 2%nat).
Proof. split; eexists _, _, _; (split; [vm_compute; reflexivity|reflexivity]). Qed.

(** C62: fixed-format sense, ABORTED COMMAND; the same key in descriptor format with ASC 04h (reported) *)
Example ex_C62 :
  (exists h d, sg_task_file (exs_kern [exs_ok [] [0x70; 0; 0x0B]]) [] false false identify_tf None 0 3%Z
     = (h, Ok (Some (EDparm "SCSI status, Sense key, ASC, ASCQ" 0 ([0x70; 0; 0x0B] ++ zeros 15)), (identify_tf, d))))
  /\ sense_key [0x72; 0x0B; 0x04] = Some 0x0B /\ nibble2 [0x72; 0x0B; 0x04] = 4.
Proof. split; [eexists _, _; vm_compute; reflexivity|]. split; vm_compute; reflexivity. Qed.

(** C63: a non-data command (CK_COND) whose registers come back in the ATA Status Return descriptor *)
Definition exs_status : bytes := [0x72; 1; 0; 0x1d; 0; 0; 0; 14] ++ [9; 12; 1; 0x04; 0x10; 0x20; 4; 1; 5; 2; 6; 3; 0x40; 0x51].
Example ex_C63 : exists h t', sg_task_file (exs_kern [exs_ok [] exs_status]) [] false false exs_tf48 None 0 3%Z = (h, Ok (None, (t', None)))
  /\ t_error t' = 4 /\ t_status t' = 0x51 /\ tf_count t' = 0x1020 /\ tf_lba t' = 0x060504030201.
Proof. eexists _, _. split; [vm_compute; reflexivity|]. vm_compute. auto. Qed.

(** C64: 3 seconds become 3 ms on the task-file path and 3000 ms on the security path *)
Example ex_C64 :
  map sg_timeout_ms (fst (sg_task_file (exs_kern [exs_ok [] []]) [] false false identify_tf None 0 3%Z)) = [3]
  /\ map sg_timeout_ms (fst (sg_security (exs_kern [exs_ok [] []]) [] false false 1 1 (zeros 4) 0 3%Z)) = [3000].
Proof. split; vm_compute; reflexivity. Qed.

(** C65: a security receive *)
Example ex_C65 :
  let '(h, r) := sg_security (exs_kern [exs_ok [1; 2; 3; 4; 5] []]) [] false false 1 0x07fe [9; 9; 9; 9] 8 3%Z in
  r = Ok (None, [1; 2; 3; 4]) /\ map sg_cdb h = [[0xA2; 1; 7; 0xfe; 0; 0; 0; 0; 0; 4; 0; 0]].
Proof. vm_compute. auto. Qed.

(** C66: a short identify answer is zero-extended *)
Example ex_C66 : exists h, sg_open (exs_kern [exs_ok [0x40; 0] []]) [] 4096 = (h, Ok ([0x40; 0] ++ zeros 510)) /\ List.length h = 1%nat.
Proof. eexists. split; vm_compute; reflexivity. Qed.
