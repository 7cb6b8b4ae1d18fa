(** Concrete cases for C166-C168, and what fails before go 1.21. *)
From Verif Require Import Base M_Buffer M_Struc M_Layouts M_Ata M_TcgDevice M_DriveHandle M_Cdb M_SgDriver M_NvmeLinux M_Strings M_LinuxFactory M_LinuxVolume M_LinuxMachine
  M_WinPass M_WinNvme M_WinInfo M_WinFactory M_WinEnum Spec_LinuxVolume P_WinNvme Spec_WinEnum P_WinEnum Prop_WinEnum M_Utf16 Spec_Utf16 P_Utf16 Spec_WinNames P_WinNames Prop_WinNames Ex_WinEnum.

(** "aé€" followed by U+1F4BE: one, two, three and four bytes; the last is a pair in UTF-16. *)
Definition exwn_chars : list N := [0x61; 0xE9; 0x20AC; 0x1F4BE].
Definition exwn_units : list N := [0x61; 0xE9; 0x20AC; 0xD83D; 0xDCBE].
Definition exwn_bytes : bytes := [0x61; 0xC3; 0xA9; 0xE2; 0x82; 0xAC; 0xF0; 0x9F; 0x92; 0xBE].
Lemma exwn_text : same_text exwn_units exwn_bytes.
Proof. exists exwn_chars. split; [repeat (constructor; [split; lia|]); constructor|]. split; reflexivity. Qed.
Example exwn_both m : utf16_to_string m exwn_units = exwn_bytes /\ create_file_name m exwn_bytes = Some exwn_units.
Proof.
  assert (Z : ~ In 0 exwn_units) by (cbn; intuition discriminate). split; [exact (C166_read m _ _ exwn_text Z)|exact (C166_pass m _ _ exwn_text Z)].
Qed.
(** Unpaired surrogates: kept since go 1.21, also next to each other in the wrong order; lost before. *)
Example exwn_modern : create_file_name true (utf16_to_string true [0x61; 0xDCBE; 0xD83D; 0x62]) = Some [0x61; 0xDCBE; 0xD83D; 0x62].
Proof. apply C166_round_trip; [repeat (constructor; [lia|]); constructor|now left]. Qed.
Theorem C166_unpaired_refuted : ~ (forall us, name_units us -> create_file_name false (utf16_to_string false us) = Some us).
Proof. intros H. specialize (H [0xD83D] ltac:(constructor; [lia|constructor])). vm_compute in H. discriminate. Qed.
Print Assumptions C166_unpaired_refuted.
Theorem C166_unpaired_distinct_refuted : ~ (forall us vs, name_units us -> name_units vs -> utf16_to_string false us = utf16_to_string false vs -> us = vs).
Proof.
  intros H. specialize (H [0xD83D] [0xDCBE] ltac:(constructor; [lia|constructor]) ltac:(constructor; [lia|constructor]) eq_refl). discriminate.
Qed.
Print Assumptions C166_unpaired_distinct_refuted.
(** What a user passes in need not be UTF-8: bytes that are none become U+FFFD. *)
Example exwn_not_utf8 : create_file_name true [0x61; 0xFF; 0xC3] = Some [0x61; 0xFFFD; 0xFFFD] /\ create_file_name false [0xED; 0xA0; 0x80] = Some [0xFFFD; 0xFFFD; 0xFFFD]
  /\ create_file_name true [0xED; 0xA0; 0x80] = Some [0xD800].
Proof. vm_compute. repeat split. Qed.
(** an overlong backslash and an overlong dot stay what they are: malformed *)
Example exwn_overlong : create_file_name true [0x61; 0xC1; 0x9C; 0xE0; 0x80; 0xAE] = Some [0x61; 0xFFFD; 0xFFFD; 0xFFFD; 0xFFFD; 0xFFFD].
Proof. vm_compute. reflexivity. Qed.
Theorem C166_any_path_refuted : ~ (forall s t us, create_file_name true s = Some us -> create_file_name true t = Some us -> s = t).
Proof. intros H. specialize (H [0xFF] [0xFE] [0xFFFD] eq_refl eq_refl). discriminate. Qed.
Print Assumptions C166_any_path_refuted.

(** Two devices, the second with a name beyond ASCII; the first cannot be opened.  Two volumes, one with such a name. *)
Definition exwn_ds : list (list N) := [str "\\?\one"; exwn_units].
Definition exwn_sys (m : bool) : xsys := {|
  x_io := x_io exe_sys; x_open := fun h => match last h XClassDevs with XSys (WOpen p) => if beq p exwn_bytes then inr 30 else inl (EMsg "denied") | _ => inr 31 end;
  x_data := fun _ => 512; x_bounce := fun _ => 1024; x_class := fun _ => inr 1;
  x_devinfo := fun h => match last h XClassDevs with XDevInfo _ i => (i <? 2)%nat | _ => false end;
  x_iface := fun _ => 0;
  x_detail := fun h => match last h XClassDevs with XDetail _ i room => path_answer (nth (N.to_nat i) exwn_ds []) room | _ => (1, ([], 0)) end;
  x_mode := fun _ => 5;
  x_first := fun _ => inr (7, exwn_units ++ [92; 0]);
  x_next := fun h => if (List.length h <? 12)%nat then inr (str "V2\" ++ [0]) else inl (EMsg "no more files");
  x_names := fun _ => None; x_info := fun _ => Some (str "NTFS" ++ [0]); x_type := fun _ => 3; x_vopen := fun _ => inr 40; x_text := utf16_to_string m |}.
Lemma exwn_answer us room : needs us < 2 ^ 32 -> snd (snd (path_answer us room)) < 2 ^ 32.
Proof. unfold path_answer. destruct (room <? needs us); auto. Qed.
Lemma exwn_sane m : sane (exwn_sys m).
Proof.
  split; intros h; cbn [x_io x_detail exwn_sys]; [apply exe_sane|]. destruct (last h XClassDevs); try reflexivity. apply exwn_answer.
  destruct (N.to_nat i) as [|[|[|k]]]; reflexivity.
Qed.
Lemma exwn_name us : forallb (fun u => (0 <? u) && (u <? 65536)) us = true -> name_units us.
Proof. intros H. apply Forall_forall. intros u I. rewrite forallb_forall in H. specialize (H u I). apply andb_prop in H as [A B]. apply N.ltb_lt in A, B. now split. Qed.
Ltac exwn_named := apply exwn_name; vm_compute; reflexivity.
Lemma exwn_listed m : device_list (exwn_sys m) exwn_ds.
Proof.
  split; [reflexivity|]. split; [intros h d i; cbn [x_devinfo exwn_sys]; now rewrite last_last|]. split.
  - intros h d i us E. split; [reflexivity|]. intros room. cbn [x_detail exwn_sys]. rewrite last_last. rewrite Nat2N.id. now rewrite (nth_error_nth _ _ [] E).
  - apply Forall_cons; [split; [exwn_named|vm_compute; discriminate]|]. apply Forall_cons; [split; [exwn_named|vm_compute; discriminate]|]. apply Forall_nil.
Qed.
Lemma exwn_scalar us : forallb (fun u => u <? 128) us = true -> Forall scalar us.
Proof. intros H. apply Forall_forall. intros u I. rewrite forallb_forall in H. specialize (H u I). apply N.ltb_lt in H. split; lia. Qed.
Ltac exwn_plain s := exists s, s; split; [apply exwn_scalar; vm_compute; reflexivity|split; vm_compute; reflexivity].
Lemma exwn_survive m : Forall (survives m) exwn_ds.
Proof.
  apply Forall_cons; [right; exwn_plain (str "\\?\one")|]. apply Forall_cons; [right; exists exwn_bytes; exact exwn_text|]. apply Forall_nil.
Qed.
Example exwn_runs m : match win_enum_drives (exwn_sys m) 5 [] with
  | (h, Ok [x]) => i_path (p_info (f_dh x)) = exwn_bytes /\ existsb (fun e => match e with XSys (WOpen p) => beq p (str "\\?\one") | _ => false end) h = true
  | _ => False end.
Proof. destruct m; vm_compute; split; reflexivity. Qed.
Definition exwn_vols (m : bool) : xhist * list wvolume := match win_enum_volumes (exwn_sys m) 5 [] with (h, Ok its) => (h, its) | (h, _) => (h, []) end.
Example exwn_volumes m : snd (win_enum_volumes (exwn_sys m) 5 []) = Ok (snd (exwn_vols m)) /\ volume_opens (fst (exwn_vols m)) = [exwn_units; str "V2"]
  /\ map wv_path (snd (exwn_vols m)) = [exwn_bytes; str "V2"] /\ map (fun v => List.length (wv_extents v)) (snd (exwn_vols m)) = [2; 2]%nat.
Proof. destruct m; vm_compute; repeat split. Qed.
Example exwn_distinct m : NoDup (volume_opens (fst (exwn_vols m))) /\ Forall name_units (volume_opens (fst (exwn_vols m))) /\ Forall (survives m) (volume_opens (fst (exwn_vols m))).
Proof.
  destruct (exwn_volumes m) as (_ & E & _). rewrite E. split; [constructor; [cbn; intuition discriminate|constructor; [intros []|constructor]]|]. split.
  - apply Forall_cons; [exwn_named|]. apply Forall_cons; [exwn_named|]. apply Forall_nil.
  - apply Forall_cons; [right; exists exwn_bytes; exact exwn_text|]. apply Forall_cons; [right; exwn_plain (str "V2")|]. apply Forall_nil.
Qed.
