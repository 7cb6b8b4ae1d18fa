(** Non-vacuity for C144: a SATA drive opened by its path and reverted, and one behind a controller that knows only the ATA commands. *)
From Verif Require Import Base M_Buffer M_Struc M_Ata M_TcgToken M_TcgCommand M_TcgDevice M_TcgSession M_DriveHandle M_Cdb M_SgDriver M_SgHandle M_NvmeLinux M_Strings M_LinuxInfo M_LinuxFactory
  M_LinuxSystem M_TcgOnDrive Spec_Drive Prop_Drive Spec_LinuxFactory P_LinuxFactory Prop_LinuxFactory Spec_NvmeLinux Spec_Sg P_Sg Prop_Sg
  Prop_NvmeLinux Prop_SgHandle Spec_Tcg Spec_TcgCommand Spec_TcgClient Spec_TcgSession Spec_TcgOnDrive P_TcgSession P_TcgOnDrive Spec_LinuxSystem P_LinuxSystem Prop_LinuxSystem Prop_LinuxTcg
  Spec_LinuxSata Prop_TcgOnDrive Prop_LinuxSataTcg Ex_TcgSession Ex_TcgOnDrive Ex_LinuxSystem.

Definition ext_answer (outs : nat) (first : bool) : bytes :=
  if first then exy_ata_identify else
  match outs with O => exy_level0 | S O => ex_packet ex_sync | _ => ex_packet (ex_plain 0) end.
Definition ext_sata (h : sg_hist) : sg_ans :=
  {| an_errno := 0; an_ret := 0; an_in := ext_answer (List.length (filter sg_out h)) (List.length h =? 1)%nat; an_sense := []; an_status := Some 0 |}.
Definition ext_path : bytes := str "/dev/sda".
Definition ext_sys := exy_sys exy_refuse_nvme ext_sata.
Definition ext_open := snd (open_by_path (linux ext_sys) [] ext_path).
Definition ext_handle : option handle := match ext_open with Ok x => Some x | _ => None end.
Example ext_name : option_map l_driver_name ext_handle = Some (str "LinuxScsiDriver").
Proof. vm_compute. reflexivity. Qed.
Example ext_takes : takes_security ext_sata.
Proof. intros k c s _. repeat split; reflexivity. Qed.
Example ext_no_nvme : forall h, no_nvme (sy_nvme ext_sys h).
Proof. intros h k (A & _). discriminate A. Qed.
Example ext_wf : forall k, wf (an_in (ext_sata k)).
Proof.
  intros k. cbn [ext_sata an_in]. unfold ext_answer. destruct (_ =? 1)%nat; [wf_lit|].
  destruct (List.length _) as [|[|]]; [apply exy_level0_wf|apply exo_packet_wf; wf_lit..].
Qed.
Definition ext_dialogue (S : system) (x : option handle) := match x with
  | Some x => match device_of x (fun _ _ => 0), l_drv x with
    | Ok d, Some V => let '(t, r) := revert_tper (drive_env V (l_dh x) (l_calls x) slept exo_kdf (fun _ => 0) 500) d [112; 119] false false [] in
        Some (r, sg_ioctls S (at_sg [] ext_path 7) (with_calls x (driver_calls V (l_dh x) (l_calls x) t)))
    | _, _ => None end
  | None => None end.
Definition ext_view (o : option (res unit * sg_hist)) := option_map (fun '(r, l) => (r, map (fun c => (nth 0 (sg_cdb c) 0, sg_dir c, sg_len c)) l)) o.
(** IDENTIFY, discovery, then the dialogue with the drive *)
Example ext_revert : ext_view (ext_dialogue ext_sys ext_handle) = Some (Ok tt,
  [(0xA1, (-3)%Z, 512); (0xA2, (-3)%Z, 2048); (0xB5, (-2)%Z, 512); (0xA2, (-3)%Z, 2048); (0xB5, (-2)%Z, 512); (0xA2, (-3)%Z, 2048)]).
Proof. vm_compute. reflexivity. Qed.
Example ext_received : option_map (fun '(_, l) => sata_received l) (ext_dialogue ext_sys ext_handle) =
  Some [frame 0 0 0x1004 (start_payload uid_AdminSP (Some ([0xD0; 32] ++ repeat 7 32)) (uid8 uid_SID)); frame 105 0x12345678 0x1004 revert_payload].
Proof. vm_compute. reflexivity. Qed.

(** The controller that knows only the ATA commands. *)
Definition ext_refused (c : sg_call) : bool := (nth 0 (sg_cdb c) 0 =? 0xB5) || (nth 0 (sg_cdb c) 0 =? 0xA2).
Definition ext_ata (h : sg_hist) : sg_ans :=
  match rev h with
  | c :: _ => if ext_refused c then {| an_errno := 5; an_ret := 0; an_in := []; an_sense := []; an_status := None |}
              else {| an_errno := 0; an_ret := 0; an_sense := []; an_status := Some 0;
                      an_in := ext_answer (List.length (filter (fun c => sg_out c && negb (ext_refused c)) h)) (List.length h =? 1)%nat |}
  | [] => {| an_errno := 5; an_ret := 0; an_in := []; an_sense := []; an_status := None |}
  end.
Definition exu_sys := exy_sys exy_refuse_nvme ext_ata.
Definition exu_handle : option handle := match snd (open_by_path (linux exu_sys) [] ext_path) with Ok x => Some x | _ => None end.
Example ext_refuses : refuses_security ext_ata.
Proof.
  intros k c s H (X & _). unfold ext_ata in X. rewrite rev_app_distr in X. cbn [rev app] in X.
  unfold security_decode in H.
  assert (O : ext_refused c = true).
  { unfold ext_refused. rewrite orb_comm. destruct (blen (sg_cdb c) =? 12); [|discriminate H].
    destruct ((nth 0 (sg_cdb c) 0 =? 0xA2) || (nth 0 (sg_cdb c) 0 =? 0xB5)); [reflexivity|discriminate H]. }
  rewrite O in X. discriminate X.
Qed.
Example exu_revert : option_map fst (ext_dialogue exu_sys exu_handle) = Some (Ok tt).
Proof. vm_compute. reflexivity. Qed.

Definition exu_rt V x d := revert_tper (drive_env V (l_dh x) (l_calls x) slept exo_kdf (fun _ => 0) 500) d [112; 119] false false [].
Definition exu_check (r : res handle) : bool := match r with
  | Ok x => match device_of x (fun _ _ => 0), l_drv x with
    | Ok d, Some V => let '(t, r) := exu_rt V x d in
        (if list_eq_dec N.eq_dec (l_driver_name x) (str "LinuxScsiDriver") then true else false) && (match r with Ok _ => true | _ => false end)
        && forallb typed_ev t && forallb (fun y => negb (blen (x_data y) =? 0)) (commands t)
    | _, _ => false end
  | _ => false end.
Lemma exu_check_spec r : exu_check r = true -> exists x V d t, r = Ok x /\ l_drv x = Some V /\ device_of x (fun _ _ => 0) = Ok d
  /\ l_driver_name x = str "LinuxScsiDriver" /\ exu_rt V x d = (t, Ok tt) /\ Forall typed (commands t) /\ Forall (fun y => x_data y <> []) (commands t).
Proof.
  unfold exu_check. destruct r as [x| | |]; try discriminate. destruct (device_of x _) as [d| | |] eqn:Hd; try discriminate.
  destruct (l_drv x) as [V|] eqn:HV; [|discriminate]. destruct (exu_rt V x d) as [t r] eqn:Rt. intros H.
  apply andb_prop in H as [H H4]. apply andb_prop in H as [H H3]. apply andb_prop in H as [H1 H2].
  exists x, V, d, t. split; [reflexivity|]. split; [exact HV|]. split; [exact Hd|]. split; [destruct (list_eq_dec N.eq_dec (l_driver_name x) (str "LinuxScsiDriver")) as [Q|]; [exact Q|discriminate H1]|].
  split; [destruct r as [[]| | |]; try discriminate H2; exact Rt|]. split; [now apply typed_ev_iff|].
  rewrite forallb_forall in H4. apply Forall_forall. intros y Hy X. specialize (H4 y Hy). rewrite X in H4. discriminate H4.
Qed.
Lemma exu_checked : exu_check (snd (open_by_path (linux exu_sys) [] ext_path)) = true.
Proof. vm_compute. reflexivity. Qed.

(** So opening a drive by path and a successful RevertTPer do not mean that the drive was told to revert. *)
Theorem C144_success_means_reverted_refuted : exists S path h' x V d clock kdf heap fuel pw t,
  addresses_ok S /\ open_by_path (linux S) [] path = (h', Ok x) /\ l_driver_name x = str "LinuxScsiDriver"
  /\ l_drv x = Some V /\ device_of x (fun _ _ => 0) = Ok d
  /\ revert_tper (drive_env V (l_dh x) (l_calls x) clock kdf heap fuel) d pw false false [] = (t, Ok tt)
  /\ let at_ := at_sg [] path 7 in
     let opening := sg_ioctls S at_ x in
     forall pre c post, sg_ioctls S at_ (with_calls x (driver_calls V (l_dh x) (l_calls x) t)) = opening ++ pre ++ c :: post ->
       succeeded (sy_sg S at_ (opening ++ pre ++ [c])) -> sg_dir c = (-2)%Z -> Forall (fun b => b = 0) (sg_mem c).
Proof.
  destruct (exu_check_spec _ exu_checked) as (x & V & d & t & Ho & HV & Hd & Hn & Rt & Ty & Ne). unfold exu_rt in Rt.
  assert (Ho' : open_by_path (linux exu_sys) [] ext_path = (fst (open_by_path (linux exu_sys) [] ext_path), Ok x)) by (rewrite <- Ho; apply surjective_pairing).
  exists exu_sys, ext_path, (fst (open_by_path (linux exu_sys) [] ext_path)), x, V, d, slept, exo_kdf, (fun _ => 0), 500%nat, [112; 119], t.
  split; [apply exy_addresses|]. split; [exact Ho'|]. split; [exact Hn|]. split; [exact HV|]. split; [exact Hd|]. split; [exact Rt|].
  cbv zeta. intros pre c post E Hs Hdir.
  assert (Nn : no_nvme (sy_nvme exu_sys (at_nvme [] ext_path 7))) by (intros k (A & _); discriminate A).
  pose proof (C144_refusing_sata_gets_zeros exu_sys [] ext_path _ x 7 t (exy_addresses _ _) eq_refl Ho' Nn Hn) as R. cbv zeta in R.
  exact (R ext_refuses Ty Ne V HV (pre ++ c :: post) E pre c post eq_refl Hs Hdir).
Qed.
Print Assumptions C144_success_means_reverted_refuted.
