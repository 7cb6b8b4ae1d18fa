(** The Windows factory, its four drivers and every drive handle of a program on ONE machine: plat_win/drive_factory.go, volume.go,
    nvme_win_driver.go, windows_nvme_driver.go, scsi_driver.go, ata_driver.go, common/drive_handle.go.  The other Windows models answer
    the calls of each handle by functions of that handle's own calls; here everything the program does is one history ([xhist]), and every
    answer is any function of all of it. *)
From Verif Require Import Base M_Buffer M_Ata M_TcgDevice M_DriveHandle M_Cdb M_SgDriver M_Strings M_WinPass M_WinNvme M_WinInfo M_WinFactory M_WinEnum.

(** common.DriveHandleImpl over a Windows driver handle: the path it was opened with, DriveHandleImpl itself, the driver handle (None:
    no driver accepted the device, or closed).  Simplification: of the DriveInfo fields only those Init may write are kept; the others
    are the business of M_WinFactory. *)
Record mhandle := { mh_path : bytes; mh_dh : dh; mh_dev : option wdh }.
Definition mhandle_of (path : bytes) (x : whandle) : mhandle :=
  {| mh_path := path; mh_dh := f_dh x; mh_dev := match f_drv x with Some (d, _, _) => Some d | None => None end |}.

(** A program: any sequence of calls.  Which call comes next may depend on all earlier results; on a given machine that fixes the
    sequence, so quantifying over sequences covers every program.  A call that panics leaves the program running (it may recover).
    OpenDriveByVolumePath and OpenDriveByPartition (volume.go:70-86) are OpenByPath on a path they compute.  [fuel] bounds the length of
    an enumeration; a longer one stops there. *)
Inductive mop : Type :=
| MOpen (path : bytes)                          (* OpenByPath; a handle, if returned, is appended to the program's handles *)
| MEnum (fuel : nat) | MVolumes (fuel : nat)    (* EnumDrives, EnumVolumes *)
| MOn (i : nat) (o : hop).                      (* a call on the i-th handle *)
Record mstate := { ms_hist : xhist; ms_handles : list mhandle }.
(** common/drive_handle.go:95-100 over the drivers' Close, which closes the device handle only *)
Definition mclose (h : xhist) (x : mhandle) : xhist * mhandle :=
  match mh_dev x with
  | None => (h, x)
  | Some d => (h ++ map XSys (close_handle [] (wd_handle d)), {| mh_path := mh_path x; mh_dh := {| p_dh := None; p_info := p_info (mh_dh x) |}; mh_dev := None |})
  end.
(** A handle without driver makes no driver call, so the driver passed to hstep then is irrelevant. *)
Definition mno_drv : drv :=
  {| v_io := fun _ => (None, []); v_tf := fun _ => tf0; v_identity := fun _ => []; v_log := fun _ => ([], None); v_type := fun _ => 0; v_name := fun _ => [] |}.
(** A call on a handle: common/drive_handle.go (M_DriveHandle.hstep), the driver's requests answered by the machine from [h] on *)
Definition mcall (X : xsys) (h : xhist) (x : mhandle) (o : hop) : xhist * mhandle :=
  match o with
  | HClose => mclose h x
  | _ =>
    let S := wsys_at X h in let A := waddr_at X h in
    let V := match mh_dev x with Some d => win_drv S A d [] | None => mno_drv end in
    let '(cs, (p, _)) := hstep V (mh_dh x) [] o in
    (match mh_dev x with Some d => h ++ map XSys (win_replay S A d [] cs) | None => h end,
     {| mh_path := mh_path x; mh_dh := p; mh_dev := mh_dev x |})
  end.
Fixpoint set_nth {A} (i : nat) (a : A) (l : list A) : list A :=
  match l, i with [], _ => [] | _ :: t, O => a :: t | b :: t, S j => b :: set_nth j a t end.
Definition mstep (X : xsys) (s : mstate) (o : mop) : mstate :=
  match o with
  | MOpen path => match x_open_by_path X (ms_hist s) path with
                  | (h, Ok x) => {| ms_hist := h; ms_handles := ms_handles s ++ [mhandle_of path x] |}
                  | (h, _) => {| ms_hist := h; ms_handles := ms_handles s |}
                  end
  | MEnum fuel => {| ms_hist := fst (win_enum_drives X fuel (ms_hist s)); ms_handles := ms_handles s |}
  | MVolumes fuel => {| ms_hist := fst (win_enum_volumes X fuel (ms_hist s)); ms_handles := ms_handles s |}
  | MOn i c => match nth_error (ms_handles s) i with
               | Some x => let '(h, x') := mcall X (ms_hist s) x c in {| ms_hist := h; ms_handles := set_nth i x' (ms_handles s) |}
               | None => s
               end
  end.
Definition mrun (X : xsys) (ops : list mop) : mstate := fold_left (mstep X) ops {| ms_hist := []; ms_handles := [] |}.
