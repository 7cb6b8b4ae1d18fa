(** SgDriverHandle (plat_linux/sg_driver.go:285-311) as the driver below a drive handle. *)
From Verif Require Import Base M_Buffer M_Ata M_TcgDevice M_DriveHandle M_Cdb M_SgDriver.

(** One driver call executed against the kernel: new kernel history, and what the call returns: error and buffer contents, task
    file afterwards.  [A] gives the addresses of buffers; the buffers passed by common/drive_handle.go are never nil.  The SG driver
    implements no NVMe call.  A panic (empty buffers only: C58, C65) is outside the driver interface of M_DriveHandle and is
    represented by (None, []); theorems about this composition assume non-empty buffers. *)
Definition sg_exec (K : kern) (A : sg_hist -> N) (kh : sg_hist) (c : dcall) : sg_hist * ((option err * bytes) * tf) :=
  match c with
  | CSec rw dma protocol comId buffer secs =>                                   (* sg_driver.go:309-311 *)
      let '(k1, r) := sg_security K kh rw dma protocol comId buffer (A kh) (Z.of_N secs) in
      (k1, match r with Ok x => (x, tf0) | _ => ((None, []), tf0) end)
  | CTask rw dma t data secs =>                                                 (* sg_driver.go:305-307 *)
      let '(k1, r) := sg_task_file K kh rw dma t (Some data) (A kh) (Z.of_N secs) in
      (k1, match r with Ok (e, (t', Some d)) => ((e, d), t') | _ => ((None, []), t) end)
  | _ => (kh, ((None, []), tf0))
  end.
Definition sg_replay (K : kern) (A : sg_hist -> N) (kh : sg_hist) (cs : dhist) : sg_hist :=
  fold_left (fun k c => fst (sg_exec K A k c)) cs kh.
(** The current call, preceded by the earlier ones. *)
Definition sg_current (cs : dhist) : option (dhist * dcall) := match rev cs with [] => None | c :: r => Some (rev r, c) end.
(** sg_driver.go:285-311; [identity] was read at open, in kernel history [kh]; DrivingAtapi = 1 (common/driver.go:19-21) *)
Definition sg_drv (K : kern) (A : sg_hist -> N) (kh : sg_hist) (identity : bytes) : drv :=
  {| v_io := fun cs => match sg_current cs with Some (before, c) => fst (snd (sg_exec K A (sg_replay K A kh before) c)) | None => (None, []) end;
     v_tf := fun cs => match sg_current cs with Some (before, c) => snd (snd (sg_exec K A (sg_replay K A kh before) c)) | None => tf0 end;
     v_identity := fun _ => identity;
     v_log := fun _ => ([], None);
     v_type := fun _ => 1;
     v_name := fun _ => [76; 105; 110; 117; 120; 83; 99; 115; 105; 68; 114; 105; 118; 101; 114] |}.   (* "LinuxScsiDriver" *)
