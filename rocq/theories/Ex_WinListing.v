(** Non-vacuity for C140 and C141: a Windows system with two disks, an Opal 2 NVMe drive behind the miniport and one no driver accepts. *)
From Verif Require Import Base M_Buffer M_Struc M_Ata M_TcgDevice M_DriveHandle M_SgDriver M_Strings M_LinuxFactory M_WinPass M_WinNvme M_WinInfo M_WinFactory M_WinEnum
  Spec_Drive Spec_LinuxFactory Spec_LinuxVolume Spec_Sg Prop_Sg Spec_WinPass Spec_WinNvme Prop_WinPass Prop_WinNvme Prop_WinDrive Prop_WinInfo Spec_WinFactory P_WinFactory Prop_WinFactory
  Spec_WinEnum Prop_WinEnum Spec_LinuxSystem Prop_LinuxTcg Spec_WinSystem P_WinSystem Prop_WinSystem Spec_WinOpen Prop_WinOpen Spec_WinListing Prop_WinListing
  Ex_LinuxSystem Ex_WinInfo Ex_WinEnum Ex_WinSystem P_TcgOnDrive.

(** STORAGE_DEVICE_DESCRIPTOR: product at 40, serial at 50 *)
Definition exp_descriptor : bytes := zeros 16 ++ le_bytes 4 40 ++ zeros 4 ++ le_bytes 4 50 ++ zeros 12 ++ str "Virtual  " ++ [0] ++ str "V-7" ++ [0].
Definition exp_io (broken : bool) (c : wcall) : wans :=
  if wc_handle c =? 6 then (if wc_code c =? 0x2d1400 then (if blen (wc_in c) =? 12 then exi_ans 0 exp_descriptor [] 54 else exi_ans 1 [] [] 0) else exi_ans 1 [] [] 0)
  else s_io (if broken then exz_broken else exz_mini) [WIo c].
Definition exp_sys (broken : bool) : xsys := {|
  x_io := fun h => match last h XClassDevs with XSys (WIo c) => exp_io broken c | _ => exi_ans 0 [] [] 0 end;
  x_open := fun h => match last h XClassDevs with XSys (WOpen p) => if beq p (str "one") then inr 5 else if beq p (str "two") then inr 6 else inr 77 | _ => inr 77 end;
  x_data := fun _ => 512; x_bounce := fun _ => 1024; x_class := fun _ => inr 1;
  x_devinfo := fun h => match last h XClassDevs with XDevInfo _ i => (i <? 2)%nat | _ => false end; x_iface := fun _ => 0;
  x_detail := fun h => match last h XClassDevs with
                       | XDetail _ 0 _ => (0, (le_bytes 4 8 ++ exe_utf16 (str "one") ++ [0; 0], 12))
                       | _ => (0, (le_bytes 4 8 ++ exe_utf16 (str "two") ++ [0; 0], 12)) end;
  x_mode := fun _ => 0; x_first := fun _ => inl (EMsg "none"); x_next := fun _ => inl (EMsg "none");
  x_names := fun _ => None; x_info := fun _ => None; x_type := fun _ => 0; x_vopen := fun _ => inl (EMsg "none"); x_text := fun us => us |}.
Lemma exp_aligned b : aligned_sys (exp_sys b). Proof. intros h. repeat split. Qed.
Lemma exp_sane b : sane (exp_sys b).
Proof.
  split; intros h.
  - cbn [exp_sys x_io]. destruct (last h XClassDevs) as [[c| |]| | | | | | | | | | | | |]; try apply wf_nil. unfold exp_io. destruct (wc_handle c =? 6).
    + destruct (_ =? _); [|apply wf_nil]. destruct (_ =? _); [|apply wf_nil]. cbn [wa_out exi_ans]. unfold exp_descriptor. rewrite !wf_app. repeat split; auto using wf_zeros; wf_lit.
    + destruct b; [|apply (exz_system [WIo c])]. cbn [exz_broken s_io last]. destruct (_ =? 130); [|apply (exz_system [WIo c])].
      cbn [wa_out exi_ans]. rewrite !wf_app. repeat split; auto using wf_zeros; [wf_lit|]. cbn [repeat concat]. rewrite !wf_app. repeat split; auto using wf_zeros, wf_nil; wf_lit.
  - cbn [exp_sys x_detail]. destruct (last h XClassDevs) as [| | | |d i n| | | | | | | | |]; try reflexivity. destruct i; reflexivity.
Qed.
Definition exp_view (x : whandle) := (i_path (p_info (f_dh x)), f_driver_name x, texts (p_info (f_dh x)), l_opal2 (i_tcg (p_info (f_dh x)))).
(** C141: what is listed *)
Example exp_listed : match snd (win_enum_drives (exp_sys false) 5 []) with Ok xs => map exp_view xs | _ => [] end =
  [(str "one", str "NvmeWinDriver", (str "ACME NVMe 1TB", str "S1234567890ABCDEF", str "FW01"), true); (str "two", [], (str "Virtual", str "V-7", []), false)].
Proof. vm_compute. reflexivity. Qed.
Example exp_applies : exists h' x1 x2, win_enum_drives (exp_sys false) 5 [] = (h', Ok [x1; x2]) /\ listed_from (exp_sys false) h' x1 /\ listed_from (exp_sys false) h' x2.
Proof.
  destruct (win_enum_drives (exp_sys false) 5 []) as (h', r) eqn:E. pose proof exp_listed as V. rewrite E in V. cbn [snd] in V.
  destruct r as [xs| | |]; try discriminate V. pose proof (C141_what_is_listed _ _ _ _ _ (exp_sane false) (exp_aligned false) E) as F.
  destruct xs as [|x1 [|x2 [|x3 r]]]; try discriminate V. exists h', x1, x2. inversion F as [|? ? F1 F2]; subst. inversion F2; subst. auto.
Qed.
(** C140 and C141, crashing: a drive whose discovery descriptors run over the buffer ends the enumeration. *)
Example exp_crash : snd (win_enum_drives (exp_sys true) 5 []) = Panic.
Proof. vm_compute. reflexivity. Qed.
(** Windows systems for the other two crashes of C140: a partition layout of 8 bytes, and a descriptor with a text beyond its end. *)
Definition exp_bad (layout : bool) : wsys :=
  {| s_io := fun h => match last h (WClose 0) with
       | WIo c => if layout && (wc_code c =? 0x70050) then exi_ans 0 (zeros 8) [] 8
                  else if (wc_code c =? 0x2d1400) && (blen (wc_in c) =? 12) then exi_ans 0 (zeros 12 ++ le_bytes 4 99) [] 40
                  else exi_ans 1 [] [] 0
       | _ => exi_ans 0 [] [] 0 end; s_open := fun _ => inr 5 |}.
Lemma exp_bad_bytes l : answers_bytes (exp_bad l).
Proof.
  intros h. cbn [exp_bad s_io]. destruct (last h (WClose 0)); try apply wf_nil. destruct (_ && _); [cbn; apply (wf_zeros 8)|].
  destruct (_ && _); [|apply wf_nil]. cbn [wa_out exi_ans]. rewrite wf_app. split; [apply wf_zeros|wf_lit].
Qed.
Example exp_bad_open : forall l, snd (win_open_by_path (exp_bad l) exi_A [] (str "d")) = Panic.
Proof. intros [|]; vm_compute; reflexivity. Qed.
(** the three ways to crash are distinguished: only the first system's layout is unreadable *)
Example exp_which : layout_ends (exp_bad true) [WOpen (str "d")] 5 /\ ~ layout_ends (exp_bad false) [WOpen (str "d")] 5.
Proof.
  split.
  - apply (C102_basic_info_panics _ _ _ (exp_bad_bytes true)). eexists. vm_compute. reflexivity.
  - intros L. apply (C102_basic_info_panics _ _ _ (exp_bad_bytes false)) in L as (h' & L). vm_compute in L. discriminate.
Qed.
