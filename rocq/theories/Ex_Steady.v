(** Non-vacuity for C145: a machine with an NVMe drive and a SATA drive. *)
From Verif Require Import Base M_Buffer M_Struc M_Ata M_TcgToken M_TcgCommand M_TcgDevice M_TcgSession M_DriveHandle M_Cdb M_SgDriver M_SgHandle M_NvmeLinux M_Strings M_LinuxInfo M_LinuxFactory
  M_LinuxVolume M_LinuxSystem Spec_LinuxFactory P_Strings P_LinuxFactory Prop_LinuxFactory Spec_Steady P_Steady Prop_Steady Ex_TcgSession Ex_TcgOnDrive Ex_LinuxSystem.

(** descriptors are numbered by the moment: two enumerations never use the same numbers *)
Definition exf_world (names : list bytes) : world :=
  {| w_open := fun h => inr (N.of_nat (List.length h)); w_basic := w_basic refusing; w_ids := w_ids refusing; w_probe := fun _ => inl (EMsg "");
     w_dir := fun _ => inr names; w_mode := fun _ => Some 0x6000 |}.
(** which path a descriptor refers to, computed *)
Fixpoint exf_path (r : lhist) (fd : N) : bytes :=
  match r with
  | [] => []
  | LOpen p :: t => if N.of_nat (List.length r) =? fd then p else exf_path t fd
  | _ :: t => exf_path t fd
  end.
Definition exf_nv (p : bytes) : nv_view -> nv_ans :=
  if list_eq_dec N.eq_dec p (str "/dev/nvme0n1") then fun l => {| na_errno := 0; na_ret := 0; na_result := 0; na_in := if (List.length l =? 1)%nat then exy_identify else exy_level0 |}
  else fun _ => {| na_errno := 25; na_ret := 0; na_result := 0; na_in := [] |}.
Definition exf_sg (p : bytes) : sg_hist -> sg_ans := if list_eq_dec N.eq_dec p (str "/dev/sda") then exy_sata else exy_refuse_sg.
Definition exf_fd (h : lhist) : N := match rev h with LProbe _ fd :: _ => fd | _ => 0 end.
Definition exf_sys (names : list bytes) : system :=
  {| sy_world := exf_world names; sy_nvme := fun h l => exf_nv (exf_path (rev h) (exf_fd h)) (map nv_seen l); sy_nvme_addr := fun _ _ => 4096;
     sy_sg := fun h l => exf_sg (exf_path (rev h) (exf_fd h)) l; sy_sg_addr := fun _ _ => 8192 |}.
Definition exf_machine (names : list bytes) : machine :=
  {| mc_dir := inr names; mc_mode := fun _ => Some 0x6000; mc_open := fun _ => None; mc_basic := fun _ => w_basic refusing []; mc_ids := fun _ => w_ids refusing [];
     mc_nvme := exf_nv; mc_sg := exf_sg |}.
Lemma exf_refers names h fd path : refers (exf_world names) h fd path -> exf_path (rev h) fd = path.
Proof.
  induction 1 as [h path fd E|h e fd path R IH C O].
  - rewrite rev_app_distr. cbn [rev app exf_path List.length]. rewrite rev_length. cbn [exf_world w_open] in E. rewrite app_length in E. cbn in E. injection E as E.
    replace (Datatypes.S (List.length h)) with (List.length h + 1)%nat by lia. rewrite E, N.eqb_refl. reflexivity.
  - rewrite rev_app_distr. cbn [rev app]. destruct e; try exact IH. cbn [exf_path].
    destruct (_ =? fd) eqn:Q; [|exact IH]. apply N.eqb_eq in Q. exfalso. apply (O path0 eq_refl). cbn [exf_world w_open]. rewrite app_length. cbn [List.length].
    f_equal. rewrite <- Q. cbn [List.length]. rewrite rev_length. f_equal. lia.
Qed.
Lemma exf_probe h n fd : exf_fd (h ++ [LProbe n fd]) = fd /\ exf_path (rev (h ++ [LProbe n fd])) fd = exf_path (rev h) fd.
Proof. unfold exf_fd. rewrite rev_app_distr. auto. Qed.
Example exf_steady names : steady (exf_sys names) (exf_machine names).
Proof.
  unfold steady. cbv zeta. cbn [exf_sys sy_world sy_nvme sy_sg sy_sg_addr exf_machine mc_dir mc_mode mc_open mc_basic mc_ids mc_nvme mc_sg].
  repeat split; try (intros; reflexivity).
  - intros h path. eexists. reflexivity.
  - intros h n fd path R l. destruct (exf_probe h n fd) as [-> ->]. now rewrite (exf_refers names h fd path R).
  - intros h n fd path R l. destruct (exf_probe h n fd) as [-> ->]. now rewrite (exf_refers names h fd path R).
Qed.
Definition exf_names : list bytes := [str "nvme0n1"; str "sda"; str "loop0"].
Definition exf_show (r : res (list handle)) := seen (map (fun x => (i_path (p_info (l_dh x)), i_model (p_info (l_dh x)), l_driver_name x))) r.
Example exf_enum : exf_show (snd (enum_drives (linux (exf_sys exf_names)) [])) =
  Ok [(str "/dev/nvme0n1", str "ACME NVMe 1TB", str "LinuxNvmeDriver"); (str "/dev/sda", str "ACME SATA", str "LinuxScsiDriver")].
Proof. vm_compute. reflexivity. Qed.
(** the second enumeration uses other descriptors *)
Definition exf_fds (r : res (list handle)) := seen (map l_fd) r.
Example exf_fds_differ : let first := enum_drives (linux (exf_sys exf_names)) [] in
  (exf_fds (snd first), exf_fds (snd (enum_drives (linux (exf_sys exf_names)) (fst first)))) = (Ok [3; 9], Ok [18; 24]).
Proof. vm_compute. reflexivity. Qed.
Example exf_candidates : kept (candidate (exf_machine exf_names)) exf_names [str "nvme0n1"; str "sda"].
Proof.
  assert (B : exists m, Some 0x6000 = Some m /\ block_mode m) by (exists 0x6000; split; [reflexivity|apply is_block_iff; reflexivity]).
  constructor; [|constructor; [|apply kept_drop; [|constructor]]].
  1,2: split; [|split; [|exact B]]; apply contains_false; vm_compute; reflexivity.
  intros (C & _). apply C. apply contains_iff. vm_compute. reflexivity.
Qed.
Example exf_more : (mc_dir (exf_machine [str "nvme0n1"]) = inr ([str "nvme0n1"] ++ []) /\ mc_dir (exf_machine [str "nvme0n1"; str "sda"]) = inr ([str "nvme0n1"] ++ str "sda" :: [])
  /\ forall n, same_device (exf_machine [str "nvme0n1"]) (exf_machine [str "nvme0n1"; str "sda"]) n).
Proof. repeat split; reflexivity. Qed.
