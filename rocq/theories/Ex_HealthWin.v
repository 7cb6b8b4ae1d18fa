(** Non-vacuity for C150: SMART data of a SATA drive and a log page of an NVMe drive, both opened by path on Windows. *)
From Verif Require Import Base M_Buffer M_Struc M_Layouts M_Ata M_TcgDevice M_DriveHandle M_AtaUtil M_Cdb M_SgDriver M_Strings M_LinuxFactory
  M_WinPass M_WinNvme M_WinInfo M_WinFactory Spec_Drive Spec_Identity Prop_Identity Spec_LinuxFactory Spec_Sg Prop_Sg Spec_WinPass Spec_WinNvme Prop_WinPass Prop_WinNvme Prop_WinDrive Prop_WinInfo
  Spec_WinFactory Prop_WinFactory P_TcgOnDrive Spec_HealthWin Prop_HealthWin Ex_LinuxSystem Ex_WinInfo Ex_Health.

(** [sick]: requests with a memory pointer fail for SMART commands, and those with inline data are answered by the drive with status 51h
    (ready, error) and without data. *)
Definition exb_sata (sick : bool) : wsys :=
  {| s_io := fun h => match last h (WClose 0) with
       | WIo c => let cmd := nth 46 (wc_in c) 0 in
                  if wc_code c =? 0x4d030 then
                    if cmd =? 0xec then exi_ans 0 (zeros 46 ++ [0x50; 0]) exy_ata_identify 48
                    else if cmd =? 0xb0 then
                      if sick then exi_ans 50 [] [] 0
                      else exi_ans 0 (zeros 46 ++ [0x50; 0]) (if nth 40 (wc_in c) 0 =? 0xd0 then exh_values else exh_thresholds) 48
                    else exi_ans 0 (zeros 46 ++ [0x50; 0]) exy_level0 48
                  else if (wc_code c =? 0x4d02c) && sick then exi_ans 0 (zeros 46 ++ [0x51; 0]) [] 48
                  else exi_ans 1 [] [] 0
       | _ => exi_ans 0 [] [] 0 end;
     s_open := fun _ => inr 5 |}.
Definition exb_seen (S : wsys) (o : res whandle) := match o with
  | Ok x => match f_drv x with
    | Some (d, g, cs0) => let '(cs, r) := read_smart (win_drv S exi_A d g) (f_dh x) cs0 3 in
        match r with
        | Ok (v, t) => Some (f_driver_name x, M_Struc.field (indexed "Attributes" 0 "Current") v, M_Struc.field (indexed "Attributes" 0 "Threshold") t,
            map (fun e => match e with WIo c => (wc_handle c, wc_code c, nth 40 (wc_in c) 0, nth 46 (wc_in c) 0) | _ => (0, 0, 0, 0) end)
              (skipn (List.length (win_replay S exi_A d g cs0)) (win_replay S exi_A d g cs)))
        | _ => None end
    | None => None end
  | _ => None end.
Example exb_read : exb_seen (exb_sata false) (snd (win_open_by_path (exb_sata false) exi_A [] (str "\\.\PhysicalDrive0")))
  = Some (str "WindowsAtaDriver", [100], [36], [(5, 0x4d030, 0xD0, 0xB0); (5, 0x4d030, 0xD1, 0xB0)]).
Proof. vm_compute. reflexivity. Qed.
Example exb_sick_read : exb_seen (exb_sata true) (snd (win_open_by_path (exb_sata true) exi_A [] (str "\\.\PhysicalDrive0")))
  = Some (str "WindowsAtaDriver", [0], [0], [(5, 0x4d030, 0xD0, 0xB0); (5, 0x4d02c, 0xD0, 0xB0); (5, 0x4d030, 0xD1, 0xB0); (5, 0x4d02c, 0xD1, 0xB0)]).
Proof. vm_compute. reflexivity. Qed.
Lemma exb_bytes sick : answers_bytes (exb_sata sick).
Proof.
  intros h. cbn [exb_sata s_io]. destruct (last h (WClose 0)) as [c| |]; try apply wf_nil. cbv zeta.
  destruct (_ =? 0x4d030).
  - destruct (_ =? 0xec); [wf_lit|]. destruct (_ =? 0xb0); [|wf_lit]. destruct sick; wf_lit.
  - destruct (_ && sick); wf_lit.
Qed.
Lemma exb_addr : addr_ok exi_A.
Proof. intros k. split; reflexivity. Qed.

(** So an error the drive reports for SMART READ DATA need not be reported by ReadSmart. *)
Definition exb_path : bytes := str "\\.\PhysicalDrive0".
Definition exb_sys : wsys := exb_sata true.
Definition exb_check (o : whist * res whandle) : bool := match snd o with
  | Ok x => match f_drv x with
    | Some (d, g, cs0) => match read_smart (win_drv exb_sys exi_A d g) (f_dh x) cs0 3 with
      | (cs, Ok _) => (if list_eq_dec N.eq_dec (f_driver_name x) (str "WindowsAtaDriver") then true else false)
          && let evs := skipn (List.length (fst o)) (win_replay exb_sys exi_A d g cs) in
             forallb (fun e => match e with WIo c => (wa_err (s_io exb_sys [e]) =? 50) || N.testbit (nth 46 (wa_out (s_io exb_sys [e])) 0) 0 | _ => false end) evs
             && (List.length evs =? 4)%nat
      | _ => false end
    | None => false end
  | _ => false end.
Lemma exb_checked : exb_check (win_open_by_path exb_sys exi_A [] exb_path) = true.
Proof. vm_compute. reflexivity. Qed.
Lemma exb_last l e : s_io exb_sys (l ++ [e]) = s_io exb_sys [e].
Proof. cbn [exb_sys exb_sata s_io]. rewrite last_last. reflexivity. Qed.
Lemma exb_check_spec o : exb_check o = true -> exists x d g cs0 cs v, snd o = Ok x /\ f_drv x = Some (d, g, cs0)
  /\ read_smart (win_drv exb_sys exi_A d g) (f_dh x) cs0 3 = (cs, Ok v) /\ f_driver_name x = str "WindowsAtaDriver"
  /\ (List.length (skipn (List.length (fst o)) (win_replay exb_sys exi_A d g cs)) = 4)%nat
  /\ forall e, In e (skipn (List.length (fst o)) (win_replay exb_sys exi_A d g cs)) -> exists c, e = WIo c
     /\ (wa_err (s_io exb_sys [e]) <> 0 \/ N.testbit (reg 46 (wa_out (s_io exb_sys [e]))) 0 = true).
Proof.
  unfold exb_check. destruct (snd o) as [x| | |]; try discriminate. destruct (f_drv x) as [[[d g] cs0]|] eqn:HV; [|discriminate].
  destruct (read_smart (win_drv exb_sys exi_A d g) (f_dh x) cs0 3) as [cs [v| | |]] eqn:R; try discriminate.
  destruct (list_eq_dec N.eq_dec (f_driver_name x) (str "WindowsAtaDriver")) as [Q|]; [|discriminate].
  intros F. exists x, d, g, cs0, cs, v. split; [reflexivity|]. split; [exact HV|]. split; [exact R|]. split; [exact Q|]. cbv zeta in F. cbn [andb] in F.
  set (evs := skipn _ _) in *. clearbody evs. revert F. generalize (s_io exb_sys). intros K F. apply andb_true_iff in F as [F L]. apply Nat.eqb_eq in L.
  split; [exact L|].
  intros e I. rewrite forallb_forall in F. specialize (F e I). destruct e as [c| |]; try discriminate. exists c. split; [reflexivity|].
  apply orb_true_iff in F as [F|F]; [left; apply N.eqb_eq in F; rewrite F; discriminate|right; exact F].
Qed.
Theorem C150_smart_error_reported_refuted : exists S A path h' x d g cs0 cs v,
  answers_bytes S /\ addr_ok A /\ win_open_by_path S A [] path = (h', Ok x) /\ f_drv x = Some (d, g, cs0) /\ f_driver_name x = str "WindowsAtaDriver"
  /\ read_smart (win_drv S A d g) (f_dh x) cs0 3 = (cs, Ok v)
  /\ let evs := skipn (List.length h') (win_replay S A d g cs) in
     List.length evs = 4%nat
     /\ forall l e, In e evs -> exists c, e = WIo c /\ (wa_err (s_io S (l ++ [e])) <> 0 \/ N.testbit (reg 46 (wa_out (s_io S (l ++ [e])))) 0 = true).
Proof.
  destruct (exb_check_spec _ exb_checked) as (x & d & g & cs0 & cs & v & Ho & Hd & R & Hn & L & F).
  exists exb_sys, exi_A, exb_path, (fst (win_open_by_path exb_sys exi_A [] exb_path)), x, d, g, cs0, cs, v.
  split; [apply exb_bytes|]. split; [apply exb_addr|]. split; [rewrite <- Ho; apply surjective_pairing|]. split; [exact Hd|]. split; [exact Hn|]. split; [exact R|].
  cbv zeta. split; [exact L|]. intros l e I. rewrite exb_last. exact (F e I).
Qed.
Print Assumptions C150_smart_error_reported_refuted.

(** The SMART log page of an NVMe drive behind WindowsNvmeDriver. *)
Definition exb_nvme : wsys :=
  {| s_io := fun h => match last h (WClose 0) with
       | WIo c => if wc_code c =? 0x2d1400 then
                    if nth 0 (wc_in c) 0 =? 49 then exi_ans 0 (zeros 48 ++ exy_identify) [] 4144
                    else exi_ans 0 (le_bytes 4 48 ++ le_bytes 4 48 ++ zeros 40 ++ exh_page) [] 560
                  else exi_ans 1 [] [] 0
       | _ => exi_ans 0 [] [] 0 end;
     s_open := fun _ => inr 5 |}.
Example exb_log : match snd (win_open_by_path exb_nvme exi_A [] exb_path) with
  | Ok x => match f_drv x with
    | Some (d, g, cs0) => let '(cs, (page, e)) := nvme_get_log_page (win_drv exb_nvme exi_A d g) (f_dh x) cs0 0xffffffff 2 false 512 in
        Some (f_driver_name x, page, e, map (fun e => match e with WIo c => (wc_code c, nth 0 (wc_in c) 0, nth 16 (wc_in c) 0) | _ => (0, 0, 0) end)
           (skipn (List.length (win_replay exb_nvme exi_A d g cs0)) (win_replay exb_nvme exi_A d g cs)))
    | None => None end
  | _ => None end = Some (str "WindowsNvmeDriver", exh_page, None, [(0x2d1400, 50, 2)]).
Proof. vm_compute. reflexivity. Qed.
