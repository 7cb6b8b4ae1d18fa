(** Non-vacuity for C117-C118: the simulated Opal 2 drive of Ex_TcgSession behind the Linux drivers. *)
From Verif Require Import Base M_Buffer M_Ata M_TcgToken M_TcgCommand M_TcgDevice M_TcgSession M_DriveHandle M_Cdb M_SgDriver M_SgHandle M_NvmeLinux M_TcgOnDrive
  Spec_Tcg Spec_TcgCommand Spec_TcgClient Spec_TcgSession P_TcgDevice P_TcgSession Spec_NvmeLinux Spec_Sg Spec_TcgOnDrive P_TcgOnDrive.
From Verif Require Import Prop_Sg Prop_NvmeLinux Prop_SgHandle Prop_TcgOnDrive Ex_TcgSession.

Definition exo_kdf : bytes -> bytes -> bytes := fun _ _ => repeat 7 32.
Lemma exo_kdf_ok x s : List.length (exo_kdf x s) = 32%nat /\ wf (exo_kdf x s).
Proof. split; [reflexivity|]. apply Forall_forall. intros y Hy. apply repeat_spec in Hy. subst. reflexivity. Qed.
Lemma exo_packet_wf p : wf p -> wf (ex_packet p).
Proof. intros Hp. unfold ex_packet. rewrite !wf_app. repeat split; auto using wf_zeros, be_bytes_wf. Qed.

(** An NVMe controller: after the first Security Send it answers with SyncSession, after the second with success. *)
Definition exo_nvme (h : nv_hist) : nv_ans :=
  {| na_errno := 0; na_ret := 0; na_result := 0;
     na_in := ex_packet (if (List.length (nvme_received h) =? 1)%nat then ex_sync else ex_plain 0) |}.
Definition exo_p : dh := {| p_dh := Some {| is_ata := false; is_nvme := true |}; p_info := new_info [] |}.
Definition exo_nv := nv_drv exo_nvme 7 (fun _ => 4096) [] (zeros 4096).
Definition exo_E : env := drive_env exo_nv exo_p [] slept exo_kdf (fun _ => 0) 500.
Example exo_hyps : over_nvme exo_p /\ (forall k, wf (na_in (exo_nvme k))) /\ is_any_ssc ex_dev = true /\ get_base_com_id ex_dev = Ok 0x1004.
Proof.
  split; [reflexivity|]. split; [|split; reflexivity]. intros k. cbn [exo_nvme na_in]. apply exo_packet_wf. destruct (_ =? _)%nat; wf_lit.
Qed.
Definition exo_run := revert_tper exo_E ex_dev [112; 119] false false [].
Example exo_revert : snd exo_run = Ok tt.
Proof. vm_compute. reflexivity. Qed.
Example exo_ioctls : map (fun c => (nc_fd c, up_opcode (read_passthru (nc_arg c)), up_cdw10 (read_passthru (nc_arg c)), up_cdw11 (read_passthru (nc_arg c))))
   (nv_replay exo_nvme 7 (fun _ => 4096) [] (driver_calls exo_nv exo_p [] (fst exo_run)))
  = [(7, 0x81, 0x01100400, 512); (7, 0x82, 0x01100400, 2048); (7, 0x81, 0x01100400, 512); (7, 0x82, 0x01100400, 2048)].
Proof. vm_compute. reflexivity. Qed.
(** the theorem applies to that run, with the session numbers the drive assigned *)
Example exo_received : nvme_received (nv_replay exo_nvme 7 (fun _ => 4096) [] (driver_calls exo_nv exo_p [] (fst exo_run)))
  = [frame 0 0 0x1004 (start_payload uid_AdminSP (Some ([0xD0; 32] ++ repeat 7 32)) (uid8 uid_SID)); frame 105 0x12345678 0x1004 revert_payload].
Proof. vm_compute. reflexivity. Qed.

(** The same drive behind the SCSI driver. *)
Definition sg_out (c : sg_call) : bool := (sg_dir c =? -2)%Z.
Definition exo_sg (h : sg_hist) : sg_ans :=
  {| an_errno := 0; an_ret := 0; an_in := ex_packet (if (List.length (filter sg_out h) =? 1)%nat then ex_sync else ex_plain 0); an_sense := []; an_status := Some 0 |}.
Definition exo_ps : dh := {| p_dh := Some {| is_ata := true; is_nvme := false |}; p_info := new_info [] |}.
Definition exo_sd := sg_drv exo_sg (fun _ => 4096) [] (zeros 512).
Definition exo_srun := revert_tper (drive_env exo_sd exo_ps [] slept exo_kdf (fun _ => 0) 500) ex_dev [112; 119] false false [].
Example exo_srevert : snd exo_srun = Ok tt.
Proof. vm_compute. reflexivity. Qed.
Example exo_sgs : map (fun c => (nth 0 (sg_cdb c) 0, sg_len c)) (sg_replay exo_sg (fun _ => 4096) [] (driver_calls exo_sd exo_ps [] (fst exo_srun)))
  = [(0xB5, 512); (0xA2, 2048); (0xB5, 512); (0xA2, 2048)].
Proof. vm_compute. reflexivity. Qed.

(** A controller that knows only the ATA commands. *)
Definition ata_only (h : sg_hist) : sg_ans :=
  let refused c := (nth 0 (sg_cdb c) 0 =? 0xB5) || (nth 0 (sg_cdb c) 0 =? 0xA2) in
  match rev h with
  | c :: _ => if refused c then {| an_errno := 5; an_ret := 0; an_in := []; an_sense := []; an_status := None |}
              else {| an_errno := 0; an_ret := 0; an_sense := []; an_status := Some 0;
                      an_in := ex_packet (if (List.length (filter (fun c => sg_out c && negb (refused c)) h) =? 1)%nat then ex_sync else ex_plain 0) |}
  | [] => {| an_errno := 5; an_ret := 0; an_in := []; an_sense := []; an_status := None |}
  end.
Definition exo_ad := sg_drv ata_only (fun _ => 4096) [] (zeros 512).
Definition exo_arun := revert_tper (drive_env exo_ad exo_ps [] slept exo_kdf (fun _ => 0) 500) ex_dev [112; 119] false false [].
Definition exo_atrace := sg_replay ata_only (fun _ => 4096) [] (driver_calls exo_ad exo_ps [] (fst exo_arun)).
Example exo_asgs : map (fun c => (nth 0 (sg_cdb c) 0, sg_dir c, sg_len c)) exo_atrace
  = [(0xB5, (-2)%Z, 512); (0xB5, (-2)%Z, 512); (0xA1, (-2)%Z, 512); (0xA2, (-3)%Z, 2048); (0xA2, (-3)%Z, 2048); (0xA1, (-3)%Z, 2048);
     (0xB5, (-2)%Z, 512); (0xB5, (-2)%Z, 512); (0xA1, (-2)%Z, 512); (0xA2, (-3)%Z, 2048); (0xA2, (-3)%Z, 2048); (0xA1, (-3)%Z, 2048)].
Proof. vm_compute. reflexivity. Qed.

(** So "RevertTPer succeeded" does not mean that the drive was given the StartSession and Revert methods: behind that controller the operation
    succeeds although nothing but zeros is accepted from the host. *)
Theorem C118_success_on_zeros_refuted : exists K A kh identity p clock kdf heap fuel d pw t,
  let V := sg_drv K A kh identity in
  over_sg p
  /\ (forall k c s, security_decode (sg_cdb c) = Some s -> ~ succeeded (K (k ++ [c])))
  /\ revert_tper (drive_env V p [] clock kdf heap fuel) d pw false false [] = (t, Ok tt)
  /\ forall pre c post, sg_replay K A kh (driver_calls V p [] t) = sg_replay K A kh [] ++ pre ++ c :: post ->
       succeeded (K (sg_replay K A kh [] ++ pre ++ [c])) -> sg_dir c = (-2)%Z -> only_zeros (sg_mem c).
Proof.
  exists ata_only, (fun _ => 4096), [], (zeros 512), exo_ps, slept, exo_kdf, (fun _ => 0), 500%nat, ex_dev, [112; 119], (fst exo_arun).
  cbv zeta. fold exo_ad. split; [reflexivity|].
  assert (NS : forall k c s, security_decode (sg_cdb c) = Some s -> ~ succeeded (ata_only (k ++ [c]))).
  { intros k c s H (X & _). unfold ata_only in X. rewrite rev_app_distr in X. cbn [rev app] in X.
    unfold security_decode in H.
    assert (O : (nth 0 (sg_cdb c) 0 =? 0xB5) || (nth 0 (sg_cdb c) 0 =? 0xA2) = true).
    { rewrite orb_comm. destruct (blen (sg_cdb c) =? 12); [|discriminate H].
      destruct ((nth 0 (sg_cdb c) 0 =? 0xA2) || (nth 0 (sg_cdb c) 0 =? 0xB5)); [reflexivity|discriminate H]. }
    rewrite O in X. discriminate X. }
  split; [exact NS|]. split; [vm_compute; reflexivity|].
  intros pre c post E Hs Hd.
  refine (C118_ata_only_sends_zeros ata_only (fun _ => 4096) [] (zeros 512) exo_ps [] (fst exo_arun) eq_refl _ _ NS (pre ++ c :: post) E pre c post eq_refl Hs Hd).
  - apply typed_ev_iff. vm_compute. reflexivity.
  - apply Forall_forall. intros x Hx N1. assert (Q : forallb (fun x => negb (blen (x_data x) =? 0)) (commands (fst exo_arun)) = true) by (vm_compute; reflexivity).
    rewrite forallb_forall in Q. specialize (Q x Hx). rewrite N1 in Q. discriminate Q.
Qed.
Print Assumptions C118_success_on_zeros_refuted.

(** GetDefaultPassword over the NVMe driver. *)
Definition exo_nvme_pin (h : nv_hist) : nv_ans :=
  {| na_errno := 0; na_ret := 0; na_result := 0;
     na_in := ex_packet (if (List.length (nvme_received h) =? 1)%nat then ex_sync else ex_pin) |}.
Definition exo_pin_run := get_default_password (drive_env (nv_drv exo_nvme_pin 7 (fun _ => 4096) [] (zeros 4096)) exo_p [] slept exo_kdf (fun _ => 0) 500) ex_dev [].
Example exo_msid : snd exo_pin_run = Ok [77; 83; 73; 68].
Proof. vm_compute. reflexivity. Qed.
