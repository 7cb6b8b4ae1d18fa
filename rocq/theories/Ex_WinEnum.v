(** Concrete cases for C109-C116. *)
From Verif Require Import Base M_TcgDevice M_DriveHandle M_SgDriver M_Strings M_LinuxFactory Spec_LinuxVolume M_WinPass M_WinNvme M_WinInfo M_WinFactory M_WinEnum
  Spec_Sg Spec_WinPass Spec_WinNvme Spec_WinInfo Spec_LinuxFactory Spec_WinFactory Spec_WinEnum P_WinEnum Prop_WinInfo Prop_WinFactory Prop_WinEnum.

(** Four devices: 0 has no interface, 1 has a path that needs a larger buffer, 2 cannot be opened, 3 is opened; nothing answers ioctls.
    Two volumes: the first on disk 2 (two extents, GPT), the second cannot be opened. *)
Definition exe_names : list N := map N.of_nat [67; 58; 92; 0; 68; 58; 92; 0; 0]%nat.
Definition exe_extents : bytes := le_bytes 8 2 ++ (le_bytes 8 2 ++ le_bytes 8 4096 ++ le_bytes 8 512) ++ (le_bytes 8 1 ++ le_bytes 8 0 ++ le_bytes 8 100).
Definition exe_entry : bytes := le_bytes 8 1 ++ zeros 24 ++ map N.of_nat (seq 1 32).
Definition exe_utf16 (s : list N) : bytes := flat_map (fun c => [c; 0]) s.
Definition exe_sys : xsys := {|
  x_io := fun h => match last h XClassDevs with
                   | XSys (WIo c) => if wc_code c =? 0x560000 then {| wa_err := 0; wa_out := exe_extents; wa_mem := []; wa_ret := 56 |}
                                     else if wc_code c =? 0x70048 then {| wa_err := 0; wa_out := exe_entry; wa_mem := []; wa_ret := 144 |}
                                     else {| wa_err := 5; wa_out := []; wa_mem := []; wa_ret := 0 |}
                   | _ => {| wa_err := 5; wa_out := []; wa_mem := []; wa_ret := 0 |} end;
  x_open := fun h => match last h XClassDevs with XSys (WOpen p) => if beq p (str "two") then inl (EMsg "denied") else inr 30 | _ => inr 31 end;
  x_data := fun _ => 512; x_bounce := fun _ => 1024;
  x_class := fun _ => inr 1;
  x_devinfo := fun h => match last h XClassDevs with XDevInfo _ i => (i <? 4)%nat | _ => false end;
  x_iface := fun h => match last h XClassDevs with XInterface _ 0 => 259 | _ => 0 end;
  x_detail := fun h => match last h XClassDevs with
                       | XDetail _ 1 1024 => (122, ([], 1030))
                       | XDetail _ 1 _ => (0, (le_bytes 4 8 ++ exe_utf16 (str "one") ++ [0; 0], 1030))
                       | XDetail _ 2 _ => (0, (le_bytes 4 8 ++ exe_utf16 (str "two") ++ [0; 0], 12))
                       | _ => (0, (le_bytes 4 8 ++ exe_utf16 (str "three") ++ [0; 0], 16)) end;
  x_mode := fun _ => 5;
  x_first := fun _ => inr (7, str "V1\\" ++ [0]);
  x_next := fun h => if (List.length h <? 14)%nat then inr (str "V2\" ++ [0]) else inl (EMsg "no more files");
  x_names := fun h => match last h XClassDevs with XPathNames v => if beq v (str "V1\\") then Some (exe_names, 9) else None | _ => None end;
  x_info := fun _ => Some (str "NTFS" ++ [0]); x_type := fun _ => 3;
  x_vopen := fun h => match last h XClassDevs with XVolumeOpen v => if beq v (str "V1") then inr 40 else inl (EMsg "denied") | _ => inr 41 end;
  x_text := fun us => us |}.
Lemma exe_sane : sane exe_sys.
Proof.
  split; intros h; cbn [x_io x_detail exe_sys].
  - destruct (last h XClassDevs) as [[c| |]| | | | | | | | | | | | |]; try (constructor; fail). destruct (wc_code c =? 0x560000); [repeat constructor|].
    destruct (wc_code c =? 0x70048); [repeat constructor|constructor].
  - destruct (last h XClassDevs); try reflexivity. destruct i as [|[i|[i|i|]|]]; try reflexivity. destruct size as [|q]; [reflexivity|].
    do 12 (destruct q as [q|q|]; try reflexivity).
Qed.
(** EnumDrives: drives "one" and "three"; the second buffer has 2048 bytes. *)
Example exe_drives : let '(h, r) := win_enum_drives exe_sys 10 [] in
  match r with Ok xs => map (fun x => i_path (p_info (f_dh x))) xs = [str "one"; str "three"] | _ => False end /\
  existsb (fun e => match e with XDetail 1 1 2048 => true | _ => false end) h = true /\ last h XClassDevs = XDestroy 1.
Proof. vm_compute. repeat split. Qed.
(** EnumVolumes *)
Definition exe_volumes : list wvolume := match snd (win_enum_volumes exe_sys 10 []) with Ok vs => vs | _ => [] end.
Definition exe_uuid := str "{04030201-0605-0807-090A-0B0C0D0E0F10}".
Example exe_volumes_run : let '(h, r) := win_enum_volumes exe_sys 10 [] in
  r = Ok exe_volumes /\ closed_in h = [40] /\ last h XClassDevs = XErrorMode 5 /\
  map wv_path exe_volumes = [str "V1"; str "V2"] /\ map wv_fs exe_volumes = [str "NTFS"; str "NTFS"] /\
  map wv_mounts exe_volumes = [[str "C:\"]; []] /\
  map (fun v => map (fun e => (ex_disk e, ex_start e, ex_size e)) (wv_extents v)) exe_volumes = [[(2, 4096, 512); (1, 0, 100)]; []] /\
  match map wv_part exe_volumes with
  | [Some p; None] => (wp_disk p, wp_start p, wp_size p, get_style p) = (2, 4096, 512, 2) /\ option_map fst (get_gpt_info p) = Some exe_uuid
  | _ => False end.
Proof. vm_compute. repeat split. Qed.
(** FindVolumesByDrive: disk 2 has the first volume, disk 1 (its second extent) none. *)
Example exe_find : map wi_path (win_find_volumes exe_volumes 2) = [str "V1"] /\ win_find_volumes exe_volumes 1 = [].
Proof. vm_compute. split; reflexivity. Qed.
(** OpenDriveByVolumePath *)
Example exe_open : match win_open_by_volume_path no_driver {| ad_data := fun _ => 512; ad_bounce := fun _ => 1024 |} [] exe_volumes (str "V1\") with
  | (_, Some (Ok x)) => i_path (p_info (f_dh x)) = str "\\.\PhysicalDrive2" | _ => False end.
Proof. vm_compute. reflexivity. Qed.
Example exe_open_none : win_open_by_volume_path no_driver {| ad_data := fun _ => 512; ad_bounce := fun _ => 1024 |} [] exe_volumes (str "V2\") = ([], None) /\
  win_open_by_volume_path no_driver {| ad_data := fun _ => 512; ad_bounce := fun _ => 1024 |} [] exe_volumes (str "V1\\") = ([], None).
Proof. vm_compute. split; reflexivity. Qed.
Example exe_nodup : NoDup (map (fun v => trim_suffix 92 (wv_path v)) exe_volumes).
Proof.
  assert (E : map (fun v => trim_suffix 92 (wv_path v)) exe_volumes = [str "V1"; str "V2"]) by (vm_compute; reflexivity). rewrite E.
  repeat constructor; cbn; intuition discriminate.
Qed.
(** The panics: a required size of 0; 172 extents; mount points that never end. *)
Definition exe_with_detail (d : N * (bytes * N)) : xsys := {|
  x_io := x_io exe_sys; x_open := x_open exe_sys; x_data := x_data exe_sys; x_bounce := x_bounce exe_sys; x_class := x_class exe_sys; x_devinfo := x_devinfo exe_sys;
  x_iface := x_iface exe_sys; x_detail := fun _ => d; x_mode := x_mode exe_sys; x_first := x_first exe_sys; x_next := x_next exe_sys; x_names := x_names exe_sys;
  x_info := x_info exe_sys; x_type := x_type exe_sys; x_vopen := x_vopen exe_sys; x_text := x_text exe_sys |}.
Example exe_zero_size : let '(h, r) := win_enum_drives (exe_with_detail (122, ([], 0))) 10 [] in r = Panic /\ last h XClassDevs = XDestroy 1.
Proof. vm_compute. split; reflexivity. Qed.
Definition exe_with_extents (n : N) (names : list N) : xsys := {|
  x_io := fun _ => {| wa_err := 0; wa_out := le_bytes 4 n; wa_mem := []; wa_ret := 4 |}; x_open := x_open exe_sys; x_data := x_data exe_sys; x_bounce := x_bounce exe_sys; x_class := x_class exe_sys; x_devinfo := x_devinfo exe_sys;
  x_iface := x_iface exe_sys; x_detail := x_detail exe_sys; x_mode := x_mode exe_sys; x_first := x_first exe_sys; x_next := x_next exe_sys; x_names := fun _ => Some (names, 9);
  x_info := x_info exe_sys; x_type := x_type exe_sys; x_vopen := fun _ => inr 40; x_text := x_text exe_sys |}.
Example exe_many_extents : let '(h, r) := win_enum_volumes (exe_with_extents 172 [0]) 10 [] in r = Panic /\ closed_in h = [40] /\ last h XClassDevs = XErrorMode 5.
Proof. vm_compute. repeat split. Qed.
Example exe_endless_names : let '(h, r) := win_enum_volumes (exe_with_extents 1 (repeat 65 (N.to_nat 4096))) 10 [] in r = Panic /\ closed_in h = [] /\ last h XClassDevs = XErrorMode 5.
Proof. vm_compute. repeat split. Qed.
Example exe_find_first_fails : win_enum_volumes one_disk 10 [] = ([XErrorMode 1; XFindFirst; XErrorMode 0], Err (EMsg "none")).
Proof. reflexivity. Qed.
