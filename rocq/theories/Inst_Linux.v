(** The theorems from a device path to a finished TCG dialogue (C117, C118, C125, C144, C173, C175) applied to concrete systems: every hypothesis is met at once. *)
From Verif Require Import Base M_Buffer M_Struc M_Ata M_TcgToken M_TcgCommand M_TcgDevice M_TcgSession M_DriveHandle M_Cdb M_SgDriver M_SgHandle M_NvmeLinux M_Strings M_LinuxInfo M_LinuxFactory
  M_LinuxSystem M_TcgOnDrive Spec_Drive Prop_Drive Spec_LinuxFactory P_LinuxFactory Prop_LinuxFactory Spec_NvmeLinux Spec_Sg P_Sg Prop_Sg
  Prop_NvmeLinux Prop_SgHandle Spec_Tcg Spec_TcgCommand Spec_TcgClient Spec_TcgSession Spec_TcgOnDrive P_TcgSession P_TcgOnDrive Spec_LinuxSystem P_LinuxSystem Prop_LinuxSystem Prop_LinuxTcg
  Spec_LinuxSata Prop_TcgOnDrive Prop_LinuxSataTcg M_Sha1 Spec_Sha1 P_Sha1 Prop_Sha1 P_Password Prop_Password
  Ex_TcgSession Ex_TcgOnDrive Ex_LinuxSystem Ex_LinuxSata Ex_Password Inst_Tcg.

(** ---- the drivers alone ---- *)
Example inst_C117_revert := C117_revert_over_nvme exo_nvme 7 (fun _ => 4096) [] (zeros 4096) exo_p [] slept exo_kdf (fun _ => 0) 500%nat ex_dev 0x1004 [112; 119] false false _ _
  (proj1 exo_hyps) (fun _ => eq_refl) (proj1 (proj2 exo_hyps)) (fun _ => eq_refl) exo_kdf_ok eq_refl inst_com eq_refl ltac:(wf_now) (surjective_pairing exo_run).
Lemma inst_pin_bytes : forall k, wf (na_in (exo_nvme_pin k)).
Proof. intros k. cbn [exo_nvme_pin na_in]. apply exo_packet_wf. destruct (_ =? _)%nat; wf_now. Qed.
Example inst_C117_password := C117_password_over_nvme exo_nvme_pin 7 (fun _ => 4096) [] (zeros 4096) exo_p [] slept exo_kdf (fun _ => 0) 500%nat ex_dev 0x1004 _ _
  (proj1 exo_hyps) (fun _ => eq_refl) inst_pin_bytes (fun _ => eq_refl) exo_kdf_ok eq_refl inst_com eq_refl (surjective_pairing exo_pin_run).
Lemma inst_sg_bytes : forall k, wf (an_in (exo_sg k)).
Proof. intros k. cbn [exo_sg an_in]. apply exo_packet_wf. destruct (_ =? _)%nat; wf_now. Qed.
Lemma inst_over_sg : over_sg exo_ps.
Proof. reflexivity. Qed.
Example inst_C118_revert := C118_revert_over_sg exo_sg (fun _ => 4096) [] (zeros 512) exo_ps [] slept exo_kdf (fun _ => 0) 500%nat ex_dev 0x1004 [112; 119] false false _ _
  inst_over_sg inst_sg_bytes (fun _ => eq_refl) exo_kdf_ok eq_refl inst_com eq_refl ltac:(wf_now) (surjective_pairing exo_srun).

(** ---- from the path ---- *)
Definition inst_level0 := fill (zeros 2048) exy_level0.
Definition inst_opal2 : bytes := match last_listed 0x0203 exy_features with Some d => d | None => [] end.
Lemma inst_listed : listed 0x0200 exy_features = false /\ last_listed 0x0203 exy_features = Some inst_opal2 /\ (8 <= List.length inst_opal2)%nat.
Proof. split; [reflexivity|]. split; [reflexivity|]. apply Nat.leb_le. reflexivity. Qed.
(** what the theorems ask of the opening, decided by computation: the driver, the device and the last answer *)
Definition nvme_check (S : system) : bool := match snd (open_by_path (linux S) [] exy_path) with
  | Ok x => (if list_eq_dec N.eq_dec (l_driver_name x) (str "LinuxNvmeDriver") then true else false)
            && match l_drv x, device_of x (fun _ _ => 0) with Some _, Ok _ => true | _, _ => false end
            && (let a := sy_nvme S (at_nvme [] exy_path 7) (nvme_ioctls S (at_nvme [] exy_path 7) x) in
                (na_errno a =? 0) && (na_ret a =? 0) && if list_eq_dec N.eq_dec (na_in a) exy_level0 then true else false)
  | _ => false end.
Lemma nvme_checked S : nvme_check S = true -> let at_ := at_nvme [] exy_path 7 in exists x V d,
  open_by_path (linux S) [] exy_path = (fst (open_by_path (linux S) [] exy_path), Ok x) /\ l_driver_name x = str "LinuxNvmeDriver"
  /\ l_drv x = Some V /\ device_of x (fun _ _ => 0) = Ok d
  /\ nv_succeeded (sy_nvme S at_ (nvme_ioctls S at_ x)) /\ delivered (zeros 2048) (na_in (sy_nvme S at_ (nvme_ioctls S at_ x))) inst_level0.
Proof.
  unfold nvme_check. cbv zeta. destruct (snd (open_by_path (linux S) [] exy_path)) as [x| | |] eqn:E; try discriminate. intros H.
  apply andb_prop in H as [H H3]. apply andb_prop in H as [H1 H2]. apply andb_prop in H3 as [H3 H5]. apply andb_prop in H3 as [H3 H4].
  destruct (l_drv x) as [V|] eqn:EV; [|discriminate H2]. destruct (device_of x _) as [d| | |] eqn:ED; try discriminate H2.
  exists x, V, d. split; [rewrite <- E; apply surjective_pairing|]. split; [destruct (list_eq_dec N.eq_dec (l_driver_name x) (str "LinuxNvmeDriver")) as [Q|]; [exact Q|discriminate H1]|].
  split; [exact EV|]. split; [exact ED|]. split; [split; apply N.eqb_eq; assumption|].
  destruct (list_eq_dec N.eq_dec _ exy_level0) as [Q|]; [rewrite Q; apply fill_delivered|discriminate H5].
Qed.
Definition sata_check (S : system) : bool := match snd (open_by_path (linux S) [] exy_path) with
  | Ok x => (if list_eq_dec N.eq_dec (l_driver_name x) (str "LinuxScsiDriver") then true else false)
            && match l_drv x, device_of x (fun _ _ => 0) with Some _, Ok _ => true | _, _ => false end
            && (let a := sy_sg S (at_sg [] exy_path 7) (sg_ioctls S (at_sg [] exy_path 7) x) in
                if list_eq_dec N.eq_dec (an_in a) exy_level0 then true else false)
  | _ => false end.
Lemma sata_checked S : sata_check S = true -> let at_ := at_sg [] exy_path 7 in exists x V d,
  open_by_path (linux S) [] exy_path = (fst (open_by_path (linux S) [] exy_path), Ok x) /\ l_driver_name x = str "LinuxScsiDriver"
  /\ l_drv x = Some V /\ device_of x (fun _ _ => 0) = Ok d
  /\ delivered (zeros 2048) (an_in (sy_sg S at_ (sg_ioctls S at_ x))) inst_level0.
Proof.
  unfold sata_check. cbv zeta. destruct (snd (open_by_path (linux S) [] exy_path)) as [x| | |] eqn:E; try discriminate. intros H.
  apply andb_prop in H as [H H3]. apply andb_prop in H as [H1 H2].
  destruct (l_drv x) as [V|] eqn:EV; [|discriminate H2]. destruct (device_of x _) as [d| | |] eqn:ED; try discriminate H2.
  exists x, V, d. split; [rewrite <- E; apply surjective_pairing|]. split; [destruct (list_eq_dec N.eq_dec (l_driver_name x) (str "LinuxScsiDriver")) as [Q|]; [exact Q|discriminate H1]|].
  split; [exact EV|]. split; [exact ED|].
  destruct (list_eq_dec N.eq_dec _ exy_level0) as [Q|]; [rewrite Q; apply fill_delivered|discriminate H3].
Qed.
Lemma inst_nvme_ok : nvme_check (exy_sys exy_nvme exy_refuse_sg) = true /\ nvme_check expw_sys = true.
Proof. split; vm_compute; reflexivity. Qed.
Lemma inst_sata_ok : sata_check ext_sys = true /\ sata_check expw_sata_sys = true.
Proof. split; vm_compute; reflexivity. Qed.

(** Each of the following opens a drive, makes a device of it and runs the operation; its proof applies the theorem to that run (hypothesis C), every premise being supplied. *)
Example inst_C125 : exists x V d t r, l_drv x = Some V /\ device_of x (fun _ _ => 0) = Ok d
  /\ revert_tper (drive_env V (l_dh x) (l_calls x) slept exo_kdf (fun _ => 0) 500) d [112; 119] false false [] = (t, r).
Proof.
  destruct (nvme_checked _ (proj1 inst_nvme_ok)) as (x & V & d & Ho & Hn & HV & Hd & Hs & Da). destruct inst_listed as (L1 & L2 & L3).
  destruct (revert_tper (drive_env V (l_dh x) (l_calls x) slept exo_kdf (fun _ => 0) 500) d [112; 119] false false []) as [t r] eqn:Rt.
  pose proof (C125_revert_opened_drive (exy_sys exy_nvme exy_refuse_sg) [] exy_path _ x 7 inst_level0 exy_features inst_opal2 (fun _ _ => 0) d slept exo_kdf (fun _ => 0) 500%nat [112; 119] false false t r
    (exy_addresses _ _) eq_refl Ho Hn exy_bytes (fun _ => eq_refl) exo_kdf_ok ltac:(wf_now) Hs Da exy_conforming L1 L2 L3 Hd V HV Rt) as C.
  exists x, V, d, t, r. auto.
Qed.
Example inst_C173_nvme : exists x V d t r, l_drv x = Some V /\ device_of x (fun _ _ => 0) = Ok d
  /\ revert_tper (drive_env V (l_dh x) (l_calls x) slept go_pbkdf2 (fun _ => 0) 500) d [112; 119] false false [] = (t, r).
Proof.
  destruct (nvme_checked _ (proj1 inst_nvme_ok)) as (x & V & d & Ho & Hn & HV & Hd & Hs & Da). destruct inst_listed as (L1 & L2 & L3).
  destruct (revert_tper (drive_env V (l_dh x) (l_calls x) slept go_pbkdf2 (fun _ => 0) 500) d [112; 119] false false []) as [t r] eqn:Rt.
  pose proof (C173_revert_of_opened_nvme (exy_sys exy_nvme exy_refuse_sg) [] exy_path _ x 7 inst_level0 exy_features inst_opal2 (fun _ _ => 0) d slept (fun _ => 0) 500%nat [112; 119] false false t r
    (exy_addresses _ _) eq_refl Ho Hn exy_bytes (fun _ => eq_refl) ltac:(wf_now) Hs Da exy_conforming L1 L2 L3 Hd V HV Rt) as C.
  exists x, V, d, t, r. auto.
Qed.
Example inst_C175_nvme : exists x V d t r, l_drv x = Some V /\ device_of x (fun _ _ => 0) = Ok d
  /\ get_default_password (drive_env V (l_dh x) (l_calls x) slept exo_kdf (fun _ => 0) 500) d [] = (t, r).
Proof.
  destruct (nvme_checked _ (proj2 inst_nvme_ok)) as (x & V & d & Ho & Hn & HV & Hd & Hs & Da). destruct inst_listed as (L1 & L2 & L3).
  destruct (get_default_password (drive_env V (l_dh x) (l_calls x) slept exo_kdf (fun _ => 0) 500) d []) as [t r] eqn:Rt.
  pose proof (C175_password_of_opened_nvme expw_sys [] exy_path _ x 7 inst_level0 exy_features inst_opal2 (fun _ _ => 0) d slept exo_kdf (fun _ => 0) 500%nat t r
    (exy_addresses _ _) eq_refl Ho Hn expw_bytes (fun _ => eq_refl) exo_kdf_ok Hs Da exy_conforming L1 L2 L3 Hd V HV Rt) as C.
  exists x, V, d, t, r. auto.
Qed.
Example inst_C144 : exists x V d t r, l_drv x = Some V /\ device_of x (fun _ _ => 0) = Ok d
  /\ revert_tper (drive_env V (l_dh x) (l_calls x) slept exo_kdf (fun _ => 0) 500) d [112; 119] false false [] = (t, r).
Proof.
  destruct (sata_checked _ (proj1 inst_sata_ok)) as (x & V & d & Ho & Hn & HV & Hd & Da). destruct inst_listed as (L1 & L2 & L3).
  destruct (revert_tper (drive_env V (l_dh x) (l_calls x) slept exo_kdf (fun _ => 0) 500) d [112; 119] false false []) as [t r] eqn:Rt.
  pose proof (C144_revert_opened_sata ext_sys [] exy_path _ x 7 inst_level0 exy_features inst_opal2 (fun _ _ => 0) d slept exo_kdf (fun _ => 0) 500%nat [112; 119] false false t r
    (exy_addresses _ _) eq_refl Ho (ext_no_nvme _) Hn ext_takes ext_wf (fun _ => eq_refl) exo_kdf_ok ltac:(wf_now) Da exy_conforming L1 L2 L3 Hd V HV Rt) as C.
  exists x, V, d, t, r. auto.
Qed.
Example inst_C173_sata : exists x V d t r, l_drv x = Some V /\ device_of x (fun _ _ => 0) = Ok d
  /\ revert_tper (drive_env V (l_dh x) (l_calls x) slept go_pbkdf2 (fun _ => 0) 500) d [112; 119] false false [] = (t, r).
Proof.
  destruct (sata_checked _ (proj1 inst_sata_ok)) as (x & V & d & Ho & Hn & HV & Hd & Da). destruct inst_listed as (L1 & L2 & L3).
  destruct (revert_tper (drive_env V (l_dh x) (l_calls x) slept go_pbkdf2 (fun _ => 0) 500) d [112; 119] false false []) as [t r] eqn:Rt.
  pose proof (C173_revert_of_opened_sata ext_sys [] exy_path _ x 7 inst_level0 exy_features inst_opal2 (fun _ _ => 0) d slept (fun _ => 0) 500%nat [112; 119] false false t r
    (exy_addresses _ _) eq_refl Ho (ext_no_nvme _) Hn ext_takes ext_wf (fun _ => eq_refl) ltac:(wf_now) Da exy_conforming L1 L2 L3 Hd V HV Rt) as C.
  exists x, V, d, t, r. auto.
Qed.
Example inst_C175_sata : exists x V d t r, l_drv x = Some V /\ device_of x (fun _ _ => 0) = Ok d
  /\ get_default_password (drive_env V (l_dh x) (l_calls x) slept exo_kdf (fun _ => 0) 500) d [] = (t, r).
Proof.
  destruct (sata_checked _ (proj2 inst_sata_ok)) as (x & V & d & Ho & Hn & HV & Hd & Da). destruct inst_listed as (L1 & L2 & L3).
  destruct (get_default_password (drive_env V (l_dh x) (l_calls x) slept exo_kdf (fun _ => 0) 500) d []) as [t r] eqn:Rt.
  pose proof (C175_password_of_opened_sata expw_sata_sys [] exy_path _ x 7 inst_level0 exy_features inst_opal2 (fun _ _ => 0) d slept exo_kdf (fun _ => 0) 500%nat t r
    (exy_addresses _ _) eq_refl Ho (ext_no_nvme (at_nvme [] exy_path 7)) Hn expw_takes expw_sata_bytes (fun _ => eq_refl) exo_kdf_ok Da exy_conforming L1 L2 L3 Hd V HV Rt) as C.
  exists x, V, d, t, r. auto.
Qed.
