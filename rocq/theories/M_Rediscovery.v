(** A drive handle whose user calls TcgDiscovery0 again, and the TCG devices made from it before. *)
From Verif Require Import Base M_TcgDevice M_DriveHandle.

(** What the drive answered to the SecurityCommand of each TcgDiscovery0 call of a run (common/drive_handle.go:175-185), in order:
    the error or nil, and the 2048-byte buffer afterwards.  [hstep] is one call on the handle. *)
Fixpoint discovery_answers (V : drv) (p : dh) (h : dhist) (ops : list hop) : list (option err * bytes) :=
  match ops with
  | [] => []
  | o :: ops' =>
    let '(h1, (p1, _)) := hstep V p h o in
    match o with
    | HDiscovery => [snd (security_command V p h false false 0x01 0x0001 (zeros 2048) 3)]
    | _ => []
    end ++ discovery_answers V p1 h1 ops'
  end.

(** tcg/drive_handle.go:30-37 copies the TcgLevel0Info of the handle by value: the flags and the serial number are those of that moment,
    the map TcgRawFeatures (created once, common/drive_handle.go:85) is shared with the handle.  So a device [d] made from a handle that now
    is [p] sees its old flags and the handle's present map; [mem] is the memory behind the present descriptors. *)
Definition device_now (d : device) (p : dh) (mem : N -> N -> N) : device :=
  let t := d_info d in
  {| d_kind := d_kind d;
     d_info := {| l_tper := l_tper t; l_locking := l_locking t; l_geometry := l_geometry t; l_opal1 := l_opal1 t; l_opal2 := l_opal2 t;
                  l_enterprise := l_enterprise t; l_single_user := l_single_user t; l_data_store := l_data_store t;
                  l_raw := l_raw (i_tcg (p_info p)) |};
     d_serial := d_serial d; d_beyond := mem |}.
