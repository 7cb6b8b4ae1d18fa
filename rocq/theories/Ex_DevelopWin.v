(** Non-vacuity for C149: the development program on a Windows machine with two disks and one volume, and on one whose drive crashes it. *)
From Verif Require Import Base M_Buffer M_Struc M_Ata M_TcgDevice M_DriveHandle M_SgDriver M_Strings M_LinuxFactory M_WinPass M_WinNvme M_WinInfo M_WinFactory M_WinEnum M_DevelopWin
  Spec_Drive Spec_WinPass Spec_WinNvme Spec_WinEnum Prop_DevelopWin Ex_WinInfo Ex_WinEnum Ex_WinListing.

(** exp_sys with a volume on disk 0; \\.\PhysicalDrive1 does not exist *)
Definition exx_sys (broken : bool) : xsys := {|
  x_io := fun h => match last h XClassDevs with XSys (WIo c) => if wc_handle c =? 9 then (if wc_code c =? 0x560000 then exi_ans 0 (le_bytes 4 1 ++ zeros 28) [] 32 else exi_ans 1 [] [] 0) else exp_io broken c | _ => exi_ans 0 [] [] 0 end;
  x_open := fun h => match last h XClassDevs with XSys (WOpen p) => if beq p drive1 then inl (EMsg "file not found") else x_open (exp_sys broken) h | _ => inr 77 end;
  x_data := fun _ => 512; x_bounce := fun _ => 1024; x_class := fun _ => inr 1;
  x_devinfo := x_devinfo (exp_sys broken); x_iface := fun _ => 0; x_detail := x_detail (exp_sys broken);
  x_mode := fun _ => 0; x_first := fun _ => inr (4, str "\\?\Volume{1}\"); x_next := fun _ => inl (EMsg "none");
  x_names := fun _ => Some (str "C:\" ++ [0; 0], 5); x_info := fun _ => Some (str "NTFS"); x_type := fun _ => 3; x_vopen := fun _ => inr 9; x_text := fun us => us |}.
Definition exx_short (s : wshown) : bytes * bytes := match s with
  | WsError (EMsg m) => (str "error", str m)
  | WsError _ => (str "error", [])
  | WsDrive _ x => (str "drive", i_model (p_info (f_dh x)))
  | WsVolume _ v => (wi_fs v, wi_path v)
  end.
Definition exx_codes (h : xhist) : list N := flat_map (fun e => match e with XSys (WIo c) => if wc_handle c =? 9 then [wc_code c] else [] | _ => [] end) h.
Definition exx_closes (h : xhist) : list N := closed_in h.
Example exx_good : (map exx_short (fst (snd (develop_windows (exx_sys false) 5 []))), snd (snd (develop_windows (exx_sys false) 5 [])),
    exx_codes (fst (develop_windows (exx_sys false) 5 [])), exx_closes (fst (develop_windows (exx_sys false) 5 [])))
  = ([(str "error", str "file not found"); (str "drive", str "ACME NVMe 1TB"); (str "drive", str "Virtual"); (str "NTFS", str "\\?\Volume{1}")], true, [0x560000; 0x70048], [5; 9]).
Proof. vm_compute. reflexivity. Qed.
Example exx_crash : (map exx_short (fst (snd (develop_windows (exx_sys true) 5 []))), snd (snd (develop_windows (exx_sys true) 5 [])))
  = ([(str "error", str "file not found")], false).
Proof. vm_compute. reflexivity. Qed.
Example exx_addresses b : forall k, x_data (exx_sys b) k < 2 ^ 64 /\ x_bounce (exx_sys b) k < 2 ^ 64.
Proof. intros k. split; reflexivity. Qed.
