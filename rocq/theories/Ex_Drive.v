(** Non-vacuity for C32-C43: concrete drives on which the hypotheses hold and the answers are not trivial. *)
From Verif Require Import Base Spec_Buffer M_Buffer M_Struc M_Layouts M_Ata M_TcgDevice M_DriveHandle Spec_Drive P_Struc P_Discovery P_DriveHandle Prop_Drive.

(** C32: TPer, Locking and two Opal v2 descriptors after a 32-byte header; the answer meets every hypothesis. *)
Definition exd_features : list feature :=
  [ {| ft_code := 1; ft_version := 0x10; ft_body := [0x11; 0; 0; 0; 0; 0; 0; 0; 0; 0; 0; 0] |};
    {| ft_code := 2; ft_version := 0x10; ft_body := [0x0B; 0; 0; 0; 0; 0; 0; 0; 0; 0; 0; 0] |};
    opal2_feature;
    {| ft_code := 0x0203; ft_version := 0x20; ft_body := [8; 0] |} ].
Definition exd_header : bytes := be_bytes 4 (32 + blen (descriptors exd_features)) ++ [0; 0; 0; 1] ++ zeros 24.
Definition exd_answer : bytes := exd_header ++ descriptors exd_features ++ zeros (2048 - 90).
Example ex_C32_hypotheses : Forall feature_ok exd_features /\ i_raw_made (p_info fresh_handle) = true
  /\ level0_read (steady exd_answer) fresh_handle [] [CSec false false 1 1 (zeros 2048) 3] None
       (exd_header ++ descriptors exd_features ++ zeros (2048 - 90))
  /\ List.length exd_header = 32%nat /\ be32_at 0 exd_header = 32 + blen (descriptors exd_features).
Proof.
  split; [repeat (constructor; [split; vm_compute; reflexivity|]); constructor|]. split; [reflexivity|].
  split; [unfold level0_read; vm_compute; reflexivity|]. split; vm_compute; reflexivity.
Qed.
Definition exd_after : dh := fst (snd (tcg_discovery0 (steady exd_answer) fresh_handle [])).
Example ex_C32_result : l_tper (i_tcg (p_info exd_after)) = true /\ l_locking (i_tcg (p_info exd_after)) = true
  /\ l_opal2 (i_tcg (p_info exd_after)) = true /\ l_enterprise (i_tcg (p_info exd_after)) = false
  /\ raw_lookup (l_raw (i_tcg (p_info exd_after))) 0x0203 = Some [2; 3; 0x20; 2; 8; 0].
Proof. vm_compute. auto 10. Qed.

(** C33: the conforming answer with zero vendor bytes *)
Example ex_C33_hypotheses :
  level0_read (steady (conforming (zeros 16))) fresh_handle [] [CSec false false 1 1 (zeros 2048) 3] None
     ((be_bytes 4 (44 + blen (descriptors [opal2_feature])) ++ [0; 0; 0; 1] ++ zeros 24) ++ zeros 16
        ++ descriptors [opal2_feature] ++ zeros (2048 - 68))
  /\ List.length (be_bytes 4 (44 + blen (descriptors [opal2_feature])) ++ [0; 0; 0; 1] ++ zeros 24) = 32%nat
  /\ be32_at 0 (be_bytes 4 (44 + blen (descriptors [opal2_feature])) ++ [0; 0; 0; 1] ++ zeros 24) = 44 + blen (descriptors [opal2_feature]).
Proof. split; [unfold level0_read; vm_compute; reflexivity|split; vm_compute; reflexivity]. Qed.

(** C34: all three outcomes occur *)
Definition exd_short (len : N) : bytes := be_bytes 4 len ++ zeros 2044.
Definition exd_over : bytes := be_bytes 4 2048 ++ zeros 28 ++ concat (repeat (0 :: 9 :: 0 :: 252 :: zeros 252) 8).
Example ex_C34_outcomes :
  snd (snd (tcg_discovery0 (steady (exd_short 2049)) fresh_handle [])) = Err (EMsg "invalid data: length overflow")
  /\ snd (snd (tcg_discovery0 (steady (exd_short 2048)) fresh_handle [])) = Ok tt
  /\ snd (snd (tcg_discovery0 (steady exd_over) fresh_handle [])) = Panic.
Proof. vm_compute. auto. Qed.

(** C35: the three values of the support indicator *)
Definition failing (e : err) : drv :=
  {| v_io := fun _ => (Some e, []); v_tf := fun _ => tf0; v_identity := fun _ => []; v_log := fun _ => ([], None);
     v_type := fun _ => 0; v_name := fun _ => [] |}.
Example ex_C35 :
  i_support (p_info (fst (snd (tcg_discovery0 (failing (EMsg "not supported")) fresh_handle [])))) = (-1)%Z
  /\ i_support (p_info (fst (snd (tcg_discovery0 (failing (EMsg "i/o error")) fresh_handle [])))) = 0%Z
  /\ i_support (p_info exd_after) = 1%Z.
Proof. vm_compute. auto. Qed.

(** C36, C37: an identify block with model "AB C", serial "S1", firmware "F9", SMART supported and enabled, an SSD *)
Definition exd_ata_raw : bytes :=
  zeros 20 ++ [0x31; 0x53] ++ repeat 0x20 18 ++ zeros 6 ++ [0x39; 0x46] ++ repeat 0x20 6
  ++ [0x42; 0x41; 0x43; 0x20] ++ repeat 0x20 36 ++ zeros 70 ++ [1; 0] ++ zeros 4 ++ [1; 0] ++ zeros 164 ++ [5; 0] ++ zeros 96
  ++ [1; 0] ++ zeros 76.
Definition exd_ata : drv :=
  {| v_io := fun _ => (None, exd_answer); v_tf := fun _ => tf0; v_identity := fun _ => exd_ata_raw; v_log := fun _ => ([], None);
     v_type := fun _ => 1; v_name := fun _ => [] |}.
Definition exd_ata_handle : dh := {| p_dh := Some {| is_ata := true; is_nvme := false |}; p_info := new_info [47] |}.
Example ex_C36 : List.length exd_ata_raw = 512%nat /\
  let r := init exd_ata exd_ata_handle [] in
  let i := p_info (fst (snd r)) in
  snd (snd r) = Ok tt /\ i_model i = [0x41; 0x42; 0x20; 0x43] /\ i_serial i = [0x53; 0x31] /\ i_fw i = [0x46; 0x39]
  /\ i_smart i = true /\ i_ssd i = true /\ i_weight i = 2 /\ l_opal2 (i_tcg i) = true.
Proof. split; [reflexivity|]. vm_compute. auto 20. Qed.

(** C38: an NVMe controller, and a block that is too short *)
Definition exd_nvme_raw : bytes := [0x4d; 0x14; 0x4d; 0x14] ++ [0x53; 0x39] ++ repeat 0x20 18 ++ [0x58] ++ repeat 0x20 39 ++ [0x31] ++ zeros 4031.
Definition exd_nvme (raw : bytes) : drv :=
  {| v_io := fun _ => (Some (EMsg "no"), []); v_tf := fun _ => tf0; v_identity := fun _ => raw; v_log := fun _ => ([], None);
     v_type := fun _ => 3; v_name := fun _ => [] |}.
Definition exd_nvme_handle : dh := {| p_dh := Some {| is_ata := false; is_nvme := true |}; p_info := new_info [47] |}.
Example ex_C38 : blen exd_nvme_raw = 4096 /\
  let r := init (exd_nvme exd_nvme_raw) exd_nvme_handle [] in
  let i := p_info (fst (snd r)) in
  snd (snd r) = Ok tt /\ i_model i = [0x58] /\ i_serial i = [0x53; 0x39] /\ i_fw i = [0x31] /\ i_ssd i = true.
Proof. split; [vm_compute; reflexivity|]. vm_compute. auto 20. Qed.
Example ex_C38_short : snd (snd (init (exd_nvme (zeros 10)) exd_nvme_handle [])) = Err EUnexpectedEOF
  /\ snd (snd (init (exd_nvme []) exd_nvme_handle [])) = Err EEOF.
Proof. vm_compute. auto. Qed.

(** C39: operations before and after Close *)
Example ex_C39 :
  fst (hrun exd_ata exd_ata_handle [] [HType; HClose; HClose; HType; HSec true true 1 7 [1; 2] 3])
    = [CType; CClose]
  /\ snd (snd (hrun exd_ata exd_ata_handle [] [HType; HClose; HClose; HType; HSec true true 1 7 [1; 2] 3]))
    = [OutVal (Ok 1); OutNone; OutNone; OutVal Panic; OutErr (Some (EMsg "not supported"))].
Proof. vm_compute. auto. Qed.

(** C40, C41: a drive that refuses the security command and takes the fallback *)
Definition exd_refuses : drv :=
  {| v_io := fun h => match last h CClose with CSec _ _ _ _ _ _ => (Some (EMsg "no"), []) | _ => (None, [9; 8]) end;
     v_tf := fun _ => tf0; v_identity := fun _ => []; v_log := fun _ => ([], None); v_type := fun _ => 1; v_name := fun _ => [] |}.
Example ex_C40 :
  let '(h, (e, out)) := security_command exd_refuses exd_ata_handle [] true true 1 0x1234 (zeros 1024) 5 in
  e = None /\ firstn 3 out = [9; 8; 0] /\ List.length h = 2%nat
  /\ match h with
     | [CSec true true 1 0x1234 _ 5; CTask true true t _ 5] => trusted_blocks t = 2 /\ trusted_com_id t = 0x1234 /\ t_command t = 0x5f
     | _ => False
     end.
Proof. vm_compute. auto 10. Qed.
Example ex_C40_nvme :
  match fst (security_command exd_refuses exd_nvme_handle [] false false 1 0x1234 (zeros 512) 5) with
  | [CSec _ _ _ _ _ _; CAdmin c] => c_opcode c = 0x82 /\ c_cdw10 c = 0x01123400 /\ c_cdw11 c = 512
  | _ => False
  end.
Proof. vm_compute. auto 10. Qed.

(** C42: a driver failing twice and then answering, and one always failing; 8193 bytes allow three attempts *)
Definition exd_twice : drv :=
  {| v_io := fun h => if (List.length h <? 3)%nat then (Some (EMsg "busy"), []) else (None, [1; 2; 3]);
     v_tf := fun _ => tf0; v_identity := fun _ => []; v_log := fun _ => ([], None); v_type := fun _ => 3; v_name := fun _ => [] |}.
Example ex_C42 :
  let '(h, r) := nvme_get_log_page_by_admin_passthru exd_twice [] 0xFFFFFFFF 2 true 8193 in
  List.length h = 3%nat /\ match r with Ok (d, None) => firstn 4 d = [1; 2; 3; 0] | _ => False end.
Proof. vm_compute. auto. Qed.
Example ex_C42_all_fail :
  let '(h, r) := nvme_get_log_page_by_admin_passthru (failing (EMsg "no")) [] 0xFFFFFFFF 2 true 8192 in
  List.length h = 2%nat /\ match r with Ok (_, Some (EMsg "no")) => True | _ => False end.
Proof. vm_compute. auto. Qed.

(** C43: the SMART log *)
Example ex_C43 : c_cdw10 (log_page_cmd 0xFFFFFFFF 2 true 512 []) = 0x007F8002 /\ c_cdw11 (log_page_cmd 0xFFFFFFFF 2 true 512 []) = 0.
Proof. vm_compute. auto. Qed.
