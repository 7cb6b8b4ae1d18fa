(** Concrete cases for C100-C108. *)
From Verif Require Import Base M_Buffer M_TcgDevice M_DriveHandle M_SgDriver M_Strings M_LinuxFactory M_WinPass M_WinNvme M_WinInfo M_WinFactory
  Spec_WinPass Spec_WinInfo Spec_LinuxFactory Spec_WinFactory P_WinFactory Prop_WinPass Prop_WinNvme Prop_WinInfo Prop_WinFactory.

(** Disk 2 of 10^12 bytes with a GPT of one partition; the layout query needs two attempts when [big].  The SCSI driver accepts if
    [scsi]; otherwise no driver does and the storage query names product "DISK 1" at offset 40 and serial "S9" at offset 50. *)
Definition exi_guid : bytes := [0x28; 0x73; 0x2A; 0xC1; 0x1F; 0xF8; 0xD2; 0x11; 0xBA; 0x4B; 0; 0xA0; 0xC9; 0x3E; 0xC9; 0x3B].
Definition exi_layout : bytes :=
  le_bytes 4 1 ++ le_bytes 4 1 ++ exi_guid ++ zeros 24 ++
  (le_bytes 4 1 ++ zeros 4 ++ le_bytes 8 0x100000 ++ le_bytes 8 0x200000 ++ zeros 8 ++ exi_guid ++ rev exi_guid ++ zeros 80).
Definition exi_descr : bytes :=
  zeros 8 ++ [0; 0; 1; 0] ++ le_bytes 4 0 ++ le_bytes 4 40 ++ le_bytes 4 0 ++ le_bytes 4 50 ++ [11] ++ zeros 11 ++ str " DISK 1 " ++ [0; 0] ++ str "S9" ++ [0].
Definition exi_ans (e : N) (out mem : bytes) (ret : N) : wans := {| wa_err := e; wa_out := out; wa_mem := mem; wa_ret := ret |}.
Definition exi_id : bytes := zeros 20 ++ str "1S9 " ++ zeros 100.
Definition exi_sys (big scsi : bool) : wsys :=
  {| s_io := fun h => match last h (WClose 0) with
       | WIo c =>
         if wc_code c =? 0x2d1080 then exi_ans 0 (le_bytes 4 7 ++ le_bytes 4 2 ++ le_bytes 4 0) [] 12
         else if wc_code c =? 0x700a0 then exi_ans 0 (zeros 24 ++ le_bytes 8 1000000000000) [] 32
         else if wc_code c =? 0x70050 then
           (if big && (wc_outlen c =? 4096) then exi_ans 122 [] [] 8000 else exi_ans 0 exi_layout [] (blen exi_layout))
         else if (wc_code c =? 0x4d014) && scsi then exi_ans 0 [] exi_id 96
         else if (wc_code c =? 0x2d1400) && (blen (wc_in c) =? 12) then exi_ans 0 exi_descr [] (blen exi_descr)
         else exi_ans 1 [] [] 0
       | _ => exi_ans 0 [] [] 0 end;
     s_open := fun h => if (List.length h =? 1)%nat then inr 5 else inl (EMsg "no") |}.
Definition exi_A : waddr := {| ad_data := fun _ => 0x1000; ad_bounce := fun _ => 0x2000 |}.
Lemma exi_bytes : forall big scsi, answers_bytes (exi_sys big scsi).
Proof.
  intros big scsi h. cbn [exi_sys s_io]. destruct (last h (WClose 0)) as [c| |]; try apply Forall_nil.
  repeat match goal with |- context [if ?b then _ else _] => destruct b end; cbn [wa_out exi_ans]; try apply Forall_nil;
    vm_compute; repeat constructor; discriminate.
Qed.
(** C100: two calls, the second with the size named. *)
Example exi_fetch : exists b, read_ioctl (exi_sys true false) [] 5 0x70050 [] = ([query 5 0x70050 [] 4096; query 5 0x70050 [] 8000], Ok (b, 192)) /\ blen b = 8000.
Proof. eexists. split; [vm_compute; reflexivity|vm_compute; reflexivity]. Qed.
(** C101: number, size and table. *)
Example exi_basic : exists h p, win_basic_info (exi_sys false false) [] 5 = (h, Ok {| wb_devnum := Some 2; wb_size := Some 1000000000000; wb_style := 2; wb_mbr := 0;
    wb_gpt := str "c12a7328-f81f-11d2-ba4b-00a0c93ec93b"; wb_parts := [p] |})
  /\ wp_disk p = 2 /\ wp_start p = 0x100000 /\ wp_size p = 0x200000 /\ option_map fst (wp_gpt p) = Some (str "{C12A7328-F81F-11D2-BA4B-00A0C93EC93B}").
Proof. do 2 eexists. split; [vm_compute; reflexivity|]. repeat split. Qed.
(** C102: a layout of three bytes ends the program. *)
Definition exi_short : wsys := {| s_io := fun _ => exi_ans 0 [1; 0; 0] [] 3; s_open := fun _ => inl (EMsg "no") |}.
Example exi_panic : snd (win_basic_info exi_short [] 5) = Panic /\ answers_bytes exi_short.
Proof. split; [vm_compute; reflexivity|]. intros h. repeat constructor. Qed.
(** C103: the descriptor. *)
Example exi_query : exists h d, win_storage_query (exi_sys false false) [] 5 = (h, Ok d) /\ de_product d = str "DISK 1" /\ de_serial d = str "S9"
  /\ de_vendor d = [] /\ de_removable d = true /\ de_bus d = 11.
Proof. do 2 eexists. split; [vm_compute; reflexivity|]. repeat split. Qed.

(** C104-C106, C108: opened through the SCSI driver, third in order, after two refusals; Close closes handle 5. *)
Example exi_open : exists h x, win_open_by_path (exi_sys false true) exi_A [] (str "\\.\PhysicalDrive2") = (h, Ok x)
  /\ f_driver_name x = str "WindowsScsiDriver" /\ i_serial (p_info (f_dh x)) = str "S1 9" /\ f_devnum x = 2 /\ f_capacity x = 1000000000000%Z
  /\ p_dh (f_dh x) <> None /\ fst (win_close h x) = h ++ [WClose 5] /\ opens h = [str "\\.\PhysicalDrive2"].
Proof. do 2 eexists. split; [vm_compute; reflexivity|]. repeat split. vm_compute. discriminate. Qed.
Example exi_refusals : exists h1 h2 b, win_basic_info (exi_sys false true) [] 5 = (h1, Ok b) /\ refused (exi_sys false true) exi_A 5 h1 [KNvmeWin; KWinNvme] h2
  /\ exists h3 d, win_probe (exi_sys false true) exi_A h2 5 KScsi = (h3, Ok d) /\ full_identity d.
Proof.
  eexists. eexists. eexists. split; [vm_compute; reflexivity|]. split.
  { eapply refused_one; [vm_compute; reflexivity|]. eapply refused_one; [vm_compute; reflexivity|]. constructor. }
  do 2 eexists. split; [vm_compute; reflexivity|vm_compute; reflexivity].
Qed.
(** C107: all four refuse. *)
Example exi_fallback : exists h x, win_open_by_path (exi_sys true false) exi_A [] (str "\\.\PhysicalDrive2") = (h, Ok x)
  /\ p_dh (f_dh x) = None /\ i_model (p_info (f_dh x)) = str "DISK 1" /\ f_removable x = 1%Z /\ f_drive_type x = 3 /\ win_close h x = (h, x).
Proof. do 2 eexists. split; [vm_compute; reflexivity|]. repeat split. Qed.
(** C105: a path with a NUL byte. *)
Example exi_nul : win_open_by_path (exi_sys true true) exi_A [] [65; 0; 66] = ([], Err bad_path).
Proof. reflexivity. Qed.
(** C104, first wins: the miniport behind port 4 answers, and every storage query too. *)
Definition exi_nv : wsys :=
  {| s_io := fun h => match last h (WClose 0) with
       | WIo c => if wc_code c =? 0x70050 then exi_ans 1 [] [] 0 else exi_ans 0 [8; 0; 0; 0; 4; 0; 0; 0] [] 8
       | _ => exi_ans 0 [] [] 0 end;
     s_open := fun _ => inr 77 |}.
Example exi_first : exists h1 b h2 d h' x, answers_bytes exi_nv /\ win_basic_info exi_nv [] 5 = (h1, Ok b) /\ win_probe exi_nv exi_A h1 5 KNvmeWin = (h2, Ok d)
  /\ win_open_by_handle exi_nv exi_A [] 5 (str "x") = (h', Ok x) /\ wd_scsi d = 77.
Proof.
  do 6 eexists. split. { intros h. cbn [exi_nv s_io]. destruct (last h (WClose 0)) as [c| |]; try apply Forall_nil. destruct (wc_code c =? _); repeat constructor. }
  split; [vm_compute; reflexivity|]. split; [vm_compute; reflexivity|]. split; [vm_compute; reflexivity|reflexivity].
Qed.
