(** Vocabulary for opening drives on Windows.  From the model: the event and answer types, the records of the public API, and each driver's
    OpenByHandle ([win_probe]; what that does is C90, C92, C94). *)
From Verif Require Import Base M_DriveHandle M_Strings M_WinPass M_WinNvme M_WinInfo M_WinFactory Spec_LinuxFactory.

(** The drivers [ks] are asked one after the other for handle [hd], and all refuse; the history goes from [h] to [h']. *)
Inductive refused (S : wsys) (A : waddr) (hd : N) : whist -> list wkind -> whist -> Prop :=
| refused_none : forall h, refused S A hd h [] h
| refused_one : forall h k e h1 ks h2, win_probe S A h hd k = (h1, Err e) -> refused S A hd h1 ks h2 -> refused S A hd h (k :: ks) h2.
Definition driver_order : list wkind := [KNvmeWin; KWinNvme; KScsi; KAta].

(** What the handle says about the disk is what ReadBasicInfo found; an unknown device number is reported as 0. *)
Definition about_disk (x : whandle) (path : bytes) (b : wbasic) : Prop :=
  i_path (p_info (f_dh x)) = path /\ f_style x = wb_style b /\ f_gpt x = wb_gpt b /\ f_mbr x = wb_mbr b /\ f_parts x = wb_parts b /\
  f_devnum x = match wb_devnum b with Some n => n | None => 0 end /\
  match wb_size b with
  | Some n => n < 2 ^ 64 -> (-2 ^ 63 <= f_capacity x < 2 ^ 63)%Z /\ (f_capacity x mod 2 ^ 64)%Z = Z.of_N n       (* int64(n) *)
  | None => f_capacity x = 0%Z
  end.
(** [x] is driven by [d], installed after history [h]; so far the driver was asked for type, name and what Init needs, never closed. *)
Definition driven (x : whandle) (d : wdh) (h : whist) (cs : dhist) : Prop :=
  p_dh (f_dh x) = Some (win_dtype (wd_kind d)) /\ f_drv x = Some (d, h, [CType; CName] ++ cs) /\ ~ In CClose cs /\
  match wd_kind d with
  | KNvmeWin => f_driving x = 2 /\ f_driver_name x = str "NvmeWinDriver"
  | KWinNvme => f_driving x = 2 /\ f_driver_name x = str "WindowsNvmeDriver"
  | KScsi => f_driving x = 1 /\ f_driver_name x = str "WindowsScsiDriver"
  | KAta => f_driving x = 1 /\ f_driver_name x = str "WindowsAtaDriver"
  end.
Definition without_driver (x : whandle) : Prop :=
  p_dh (f_dh x) = None /\ f_drv x = None /\ f_driving x = 0 /\ f_driver_name x = [].
(** the model, serial and firmware texts come from the identify data the driver read *)
Definition identified (x : whandle) (d : wdh) : Prop :=
  match wd_kind d with
  | KScsi | KAta => ata_texts (wd_identity d) (p_info (f_dh x))
  | KNvmeWin | KWinNvme => nvme_texts (wd_identity d) (p_info (f_dh x))
  end.
(** nothing is known from the storage query *)
Definition not_queried (x : whandle) : Prop := f_vendor x = [] /\ f_revision x = [] /\ f_removable x = (-1)%Z /\ f_drive_type x = 0.
(** SCSI peripheral device type -> common.DriveType: direct access 0 -> fixed 3, sequential 1 -> tape 7, CD-ROM 5 -> 5, 9 -> remote 4 *)
Definition drive_type (t : N) : N := match t with 0 => 3 | 1 => 7 | 5 => 5 | 9 => 4 | _ => 0 end.
(** ... and when it answered [q] *)
Definition queried (x : whandle) (q : descr) : Prop :=
  i_model (p_info (f_dh x)) = de_product q /\ i_serial (p_info (f_dh x)) = de_serial q /\ i_fw (p_info (f_dh x)) = [] /\
  f_vendor x = de_vendor q /\ f_revision x = de_revision q /\ f_removable x = (if de_removable q then 1 else 0)%Z /\
  f_drive_type x = drive_type (de_type q).
Definition unidentified (x : whandle) : Prop := texts (p_info (f_dh x)) = ([], [], []).
