(** Non-vacuity for C164, C165: the limits are reached. *)
From Verif Require Import Base M_Ata M_TcgDevice M_DriveHandle M_Strings M_WinPass M_WinNvme M_WinInfo M_WinFactory M_WinEnum M_WinMachine Spec_WorkWin Prop_WorkWin.

Definition exww_code (e : xev) : option N := match e with XSys (WIo c) => Some (wc_code c) | _ => None end.
Definition exww_last (h : xhist) : N := match last (map exww_code h) None with Some c => c | None => 0 end.
Definition exww_count (c : N) (h : xhist) : nat := List.length (filter (fun e => match exww_code e with Some d => d =? c | None => false end) h).
Definition exww_fail (e : N) : wans := {| wa_err := e; wa_out := []; wa_mem := []; wa_ret := 1 |}.
Definition exww_good (out : bytes) : wans := {| wa_err := 0; wa_out := out; wa_mem := []; wa_ret := 0 |}.
(** One device and one volume.  The drive accepts a request with code [c] once, says ERROR_INSUFFICIENT_BUFFER where that leads to a second
    attempt and refuses everything else; [c] decides which driver accepts the drive. *)
Definition exww (c : N) : xsys :=
  {| x_io := fun h => let d := exww_last h in
                      if (d =? c) && (exww_count c h =? 1)%nat then exww_good (zeros 48)
                      else if (d =? IOCTL_SCSI_GET_ADDRESS) then exww_good []
                      else if (d =? 0x560000) then exww_good [1; 0; 0; 0]
                      else exww_fail (if (d =? IOCTL_DISK_GET_DRIVE_LAYOUT_EX) || (d =? IOCTL_STORAGE_QUERY_PROPERTY) then 122 else 5);
     x_open := fun _ => inr 3; x_data := fun _ => 4096; x_bounce := fun _ => 4096;
     x_class := fun _ => inr 4; x_devinfo := fun h => match last h XClassDevs with XDevInfo _ 0%nat => true | _ => false end; x_iface := fun _ => 0;
     x_detail := fun h => match last h XClassDevs with XDetail _ _ n => if n =? 1024 then if existsb (fun e => match e with XDetail _ _ m => m =? 1024 | _ => false end) (removelast h) then (0, ([], 12)) else (122, ([], 1000)) else (5, ([], 0)) | _ => (5, ([], 0)) end;
     x_mode := fun _ => 0; x_first := fun _ => inr (7, [65]); x_next := fun _ => inl (EMsg "no more"); x_names := fun _ => None; x_info := fun _ => None; x_type := fun _ => 3;
     x_vopen := fun _ => inr 9; x_text := fun u => u |}.
Definition exww_kinds : list N := [IOCTL_SCSI_MINIPORT; IOCTL_STORAGE_QUERY_PROPERTY; IOCTL_SCSI_PASS_THROUGH; IOCTL_ATA_PASS_THROUGH_DIRECT].
(** Requests and actions of call [o] after [ops], and the limits. *)
Definition exww_work (X : xsys) (ops : list mop) (o : mop) : (nat * nat) * (nat * nat) :=
  let s := mrun X ops in let es := skipn (List.length (ms_hist s)) (ms_hist (mstep X s o)) in
  ((requests es, List.length es), (request_limit s o es, waction_limit s o es)).
Definition exww_cases : list (N * list mop * mop) :=
  let p := str "d" in
  [(0, [], MOpen p); (IOCTL_SCSI_PASS_THROUGH, [], MOpen p); (IOCTL_SCSI_PASS_THROUGH, [], MEnum 5); (0, [], MVolumes 5)]
  ++ flat_map (fun c => map (fun o => (c, [MOpen p], MOn 0 o)) [HInit; HDiscovery; HSec false false 1 1 [0] 3; HTask true false tf0 [0] 3; HLog 1 2 false 10; HClose]) exww_kinds.
Definition exww_pairs (p : nat * nat) (q : nat * nat) : bool := (fst p =? fst q)%nat && (snd p =? snd q)%nat.
Definition exww_table : list (nat * nat) :=
  [(13, 16); (13, 16); (13, 24); (2, 12);
   (1, 1); (1, 1); (1, 1); (0, 0); (0, 0); (0, 1);
   (2, 2); (2, 2); (2, 2); (0, 0); (1, 1); (0, 1);
   (4, 4); (4, 4); (4, 4); (2, 2); (0, 0); (0, 1);
   (2, 2); (2, 2); (2, 2); (2, 2); (0, 0); (0, 1)]%nat.
Example C164_limits_reached : map (fun '(c, ops, o) => exww_work (exww c) ops o) exww_cases = map (fun w => (w, w)) exww_table.
Proof. vm_compute. reflexivity. Qed.

(** The hypotheses of C165 hold of these systems, and the numbers there are reached. *)
Example C165_hypotheses : at_most_devices (exww 0) 1 /\ at_most_volumes (exww 0) [XErrorMode 1; XFindFirst] 0.
Proof.
  split.
  - intros h d i L. cbn [exww x_devinfo]. rewrite last_last. destruct i; [lia|reflexivity].
  - intros es f _. exists (EMsg "no more"). reflexivity.
Qed.
Example C165_limits_reached :
  (devices_found (fst (win_enum_drives (exww IOCTL_SCSI_PASS_THROUGH) 9 [])), requests (fst (win_enum_drives (exww IOCTL_SCSI_PASS_THROUGH) 9 [])), List.length (fst (win_enum_drives (exww IOCTL_SCSI_PASS_THROUGH) 9 [])))
   = (1, 13, 24)%nat
  /\ (volumes_found (fst (win_enum_volumes (exww 0) 9 [])), requests (fst (win_enum_volumes (exww 0) 9 [])), List.length (fst (win_enum_volumes (exww 0) 9 []))) = (1, 2, 12)%nat.
Proof. vm_compute. auto. Qed.
(** A system whose list of devices never ends keeps EnumDrives busy for ever: more fuel, more devices. *)
Definition exww_endless : xsys :=
  {| x_io := x_io (exww 0); x_open := x_open (exww 0); x_data := x_data (exww 0); x_bounce := x_bounce (exww 0); x_class := x_class (exww 0);
     x_devinfo := fun _ => true; x_iface := fun _ => 259; x_detail := x_detail (exww 0); x_mode := x_mode (exww 0); x_first := x_first (exww 0); x_next := x_next (exww 0);
     x_names := x_names (exww 0); x_info := x_info (exww 0); x_type := x_type (exww 0); x_vopen := x_vopen (exww 0); x_text := x_text (exww 0) |}.
Theorem C165_endless : forall fuel, devices_found (fst (win_enum_drives exww_endless fuel [])) = fuel /\ snd (win_enum_drives exww_endless fuel []) = Fuel.
Proof.
  intros fuel. unfold win_enum_drives. cbv zeta. change (x_class exww_endless _) with (inr err 4).
  assert (G : forall f h i b xs, exists es, enum_devices exww_endless f h 4 i b xs = (h ++ es, (xs, Fuel)) /\ devices_found es = f).
  { induction f as [|f IH]; intros h i b xs; cbn [enum_devices]; [exists []; now rewrite app_nil_r|]. cbv zeta.
    change (x_devinfo exww_endless _) with true. change (x_iface exww_endless _) with 259. cbn [negb N.eqb Pos.eqb].
    match goal with |- context [enum_devices _ f ?h' 4 ?i' b xs] => destruct (IH h' i' b xs) as (es & -> & L) end.
    eexists. split; [rewrite <- !app_assoc; reflexivity|]. cbn. now rewrite <- L. }
  destruct (G fuel ([] ++ [XClassDevs]) 0%nat (zeros 1024) []) as (es & E & L). rewrite E. cbn [fst snd]. split; [|reflexivity]. exact L.
Qed.
Print Assumptions C165_endless.
