(** Non-vacuity for C169 and C170: the health page and the raw descriptors of an NVMe drive opened by path. *)
From Verif Require Import Base M_Buffer M_Struc M_Layouts M_Ata M_TcgDevice M_DriveHandle M_AtaUtil M_Cdb M_SgDriver M_SgHandle M_NvmeLinux M_Strings M_LinuxInfo M_LinuxFactory
  M_LinuxSystem M_LogPages Spec_Drive Spec_Identity Spec_LogPages Spec_NvmeLinux Prop_NvmeLinux Spec_LinuxSystem Ex_LinuxSystem Ex_Health Prop_LogPages.

(** warning 7, 0x012C = 300 K; from OpenByPath over NvmeGetLogPage to the decoded field *)
Definition exlp_page (o : order) : option (bytes * list N * list N * nat) :=
  match snd (open_by_path (linux exh_nsys) [] exh_path) with
  | Ok x => match l_drv x with
    | Some V => let '(cs, (page, e)) := nvme_get_log_page V (l_dh x) (l_calls x) 0xffffffff 2 false 516 in
        match e, decode_smart o page with None, Ok v => Some (l_driver_name x, field "CriticalWarning" v, field "CompositeTemperature" v, List.length page) | _, _ => None end
    | None => None end
  | _ => None end.
Example exlp_little : exlp_page Little = Some (str "LinuxNvmeDriver", [7], [300], 516%nat).
Proof. vm_compute. reflexivity. Qed.
Example exlp_written : (512 <= List.length exh_page)%nat.
Proof. vm_compute. lia. Qed.
(** decoded with the default options the same drive is at 11265 K *)
Theorem C169_default_options_read_the_page_refuted : exlp_page struc_default = Some (str "LinuxNvmeDriver", [7], [11265], 516%nat).
Proof. vm_compute. reflexivity. Qed.
Example exlp_sanitize : match decode_sanitize Little ([0xff; 0xff; 2; 1; 4] ++ zeros 27) with Ok v => Some (field "Progress" v, field "Status" v, field "Cdw10Info" v) | _ => None end
  = Some ([65535], [258], [4]).
Proof. vm_compute. reflexivity. Qed.

(** the raw descriptors of the same drive: Opal 2 decodes, TPer and Locking do not *)
Definition exlp_raw (code : N) (lay : list fld) (n : string) : option (res (list N)) :=
  match exy_open exy_nvme exy_refuse_sg with
  | Ok x => match raw_lookup (l_raw (i_tcg (p_info (l_dh x)))) code with
    | Some d => Some match decode_descriptor lay d with Ok v => Ok (field n v) | Err e => Err e | Panic => Panic | Fuel => Fuel end
    | None => None end
  | _ => None end.
Example exlp_opal2 : exlp_raw 0x0203 lay_Discovery0OpalSSCFeatureV200 "BaseComID" = Some (Ok [0x1004]).
Proof. vm_compute. reflexivity. Qed.
Theorem C170_standard_descriptors_decode_refuted : exlp_raw 0x0001 lay_Discovery0TPerFeature "B04" = Some (Err EUnexpectedEOF)
  /\ exlp_raw 0x0002 lay_Discovery0LockingFeature "B04" = Some (Err EUnexpectedEOF).
Proof. vm_compute. split; reflexivity. Qed.
Example exlp_hyps : exists f, last_listed 0x0203 exy_features = Some (descriptor f) /\ List.length (ft_body f) = 16%nat /\ In (0x0203, 16%nat) standard_length.
Proof. eexists. split; [reflexivity|]. split; [reflexivity|]. cbn. tauto. Qed.
