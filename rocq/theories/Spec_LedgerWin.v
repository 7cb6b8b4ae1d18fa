(** Vocabulary of C172: the system handles a program obtains and gives back on a Windows machine. *)
From Verif Require Import Base M_DriveHandle M_WinPass M_WinNvme M_WinInfo M_WinFactory M_WinEnum M_WinMachine.

(** One action; [h] is the history up to and including it.  Obtained: a CreateFile that succeeded (device, SCSI port, volume), a device
    information set, a volume search.  Given back: CloseHandle, SetupDiDestroyDeviceInfoList, FindVolumeClose. *)
Definition got {A B} (a : A + B) : Z := match a with inr _ => 1 | inl _ => 0 end.
Definition change (X : xsys) (h : xhist) (e : xev) : Z :=
  match e with
  | XSys (WOpen _) => got (x_open X h)
  | XVolumeOpen _ => got (x_vopen X h)
  | XClassDevs => got (x_class X h)
  | XFindFirst => got (x_first X h)
  | XSys (WClose _) | XDestroy _ | XFindClose _ => -1
  | _ => 0
  end.
(** Handles obtained less handles given back by the actions [es] that follow history [h]. *)
Fixpoint balance (X : xsys) (h es : xhist) : Z :=
  match es with [] => 0 | e :: t => change X (h ++ [e]) e + balance X (h ++ [e]) t end.
(** Drive handles still open: not closed, and with a driver. *)
Definition is_live (x : mhandle) : bool := match mh_dev x with Some _ => true | None => false end.
Definition live_handles (s : mstate) : Z := Z.of_nat (List.length (filter is_live (ms_handles s))).
(** What stays open of a drive after its Close: its device, if no driver accepted it; its SCSI port, under the miniport driver. *)
Definition left_over (x : whandle) : Z :=
  match f_drv x with None => 1 | Some (d, _, _) => match wd_kind d with KNvmeWin => 1 | _ => 0 end end.
Definition has_driver (x : whandle) : Z := match f_drv x with None => 0 | Some _ => 1 end.
Definition sum_left (xs : list whandle) : Z := fold_right (fun x n => left_over x + n)%Z 0%Z xs.
(** A call that leaves nothing behind: it ends, without panic, and every drive it opens or lists has a driver other than the miniport one. *)
Definition tidy (X : xsys) (s : mstate) (o : mop) : Prop :=
  match o with
  | MOpen p => match snd (x_open_by_path X (ms_hist s) p) with Ok x => left_over x = 0%Z | Err _ => True | _ => False end
  | MEnum n => match snd (win_enum_drives X n (ms_hist s)) with Ok xs => Forall (fun x => left_over x = 0%Z) xs | Err _ => True | _ => False end
  | MVolumes n => snd (win_enum_volumes X n (ms_hist s)) <> Fuel
  | MOn _ _ => True
  end.
Fixpoint tidy_from (X : xsys) (s : mstate) (ops : list mop) : Prop :=
  match ops with [] => True | o :: t => tidy X s o /\ tidy_from X (mstep X s o) t end.
