(** Model of plat_win/ata_driver.go, plat_win/scsi_driver.go and the copy helpers of plat_win/utils.go:230-245, on a 64-bit
    little-endian machine. *)
From Verif Require Import Base M_Buffer M_Ata M_TcgDevice M_DriveHandle M_Cdb M_SgDriver.

(** One DeviceIoControl as the system sees it: handle, control code, the input buffer, the size of the output buffer (which is the
    same memory in every pass-through call) and, for the direct codes, the memory DataBuffer points at. *)
Inductive target := TNone | TCaller | TBounce.
Record wcall := { wc_handle : N; wc_code : N; wc_in : bytes; wc_outlen : N; wc_target : target; wc_mem : bytes }.
Inductive wev :=
| WIo (c : wcall)                  (* windows.DeviceIoControl *)
| WOpen (path : bytes)             (* windows.CreateFile(path, GENERIC_READ|GENERIC_WRITE, ...) *)
| WClose (h : N).                  (* windows.CloseHandle *)
Definition whist := list wev.
(** The answer: 0 or the error number, the bytes stored over the output buffer, those stored over the direct memory, bytesReturned. *)
Record wans := { wa_err : N; wa_out : bytes; wa_mem : bytes; wa_ret : N }.
Record wsys := { s_io : whist -> wans; s_open : whist -> err + N }.

(** ata_driver.go:17-18, scsi_driver.go:18-19 *)
Definition IOCTL_ATA_PASS_THROUGH : N := 0x4d02c.
Definition IOCTL_ATA_PASS_THROUGH_DIRECT : N := 0x4d030.
Definition IOCTL_SCSI_PASS_THROUGH : N := 0x4d004.
Definition IOCTL_SCSI_PASS_THROUGH_DIRECT : N := 0x4d014.
(** Environment: the direct memory is written only when the request's own direction field says "in"
    (ATA_FLAGS_DATA_IN, bit 1 of byte 2; SCSI_IOCTL_DATA_IN, byte 8). *)
Definition direct_in (c : wcall) : bool :=
  if wc_code c =? IOCTL_ATA_PASS_THROUGH_DIRECT then N.testbit (nth 2 (wc_in c) 0) 1 else nth 8 (wc_in c) 0 =? 1.
Definition win_result (a : wans) : option err := if wa_err a =? 0 then None else Some (errno (wa_err a)).
(** Result: error, in/out buffer afterwards, direct memory afterwards. *)
Definition win_io (S : wsys) (h : whist) (c : wcall) : whist * (option err * (bytes * bytes)) :=
  let h1 := h ++ [WIo c] in
  let a := s_io S h1 in
  (h1, (win_result a, (fill (wc_in c) (wa_out a), if direct_in c then fill (wc_mem c) (wa_mem a) else wc_mem c))).

(** The loop shared by ata_driver.go:80-168, scsi_driver.go:74-200 and 257-346.  [hdr ptr old] fills the parameters in, [n] is their
    size; [back]: the buffered call's header is copied back on success (scsi_driver.go:194, 340; the ATA driver does not).
    Result: rootError, data, parameters. *)
Definition win_tries (S : wsys) (h : whist) (hd direct buffered : N) (hdr : N -> bytes -> bytes) (n : nat) (back rw : bool)
    (data : bytes) (addr baddr : N) : whist * res (option err * (bytes * bytes)) :=
  let second (h1 : whist) (data1 p1 : bytes) :=
    let p2 := hdr (N.of_nat n) p1 in
    let '(h2, (e2, (out, _))) := win_io S h1 {| wc_handle := hd; wc_code := buffered; wc_in := p2 ++ data1; wc_outlen := N.of_nat n + blen data1;
                                                 wc_target := TNone; wc_mem := [] |} in
    match e2 with
    | Some e => (h2, Ok (Some e, (data1, p2)))
    | None => (h2, Ok (None, (if rw then data1 else fill data1 (skipn n out), if back then firstn n out else p2)))
    end in
  match data with
  | [] => (h, Panic)                                                             (* &data[0] *)
  | _ =>
    match is_aligned_pointer 512 addr with
    | Ok true =>
      let '(h1, (e1, (p1, mem))) := win_io S h {| wc_handle := hd; wc_code := direct; wc_in := hdr addr (zeros n); wc_outlen := N.of_nat n;
                                                  wc_target := TCaller; wc_mem := data |} in
      match e1 with
      | None => (h1, Ok (None, (mem, p1)))
      | Some _ => second h1 mem p1
      end
    | Ok false =>
      let b0 := new_aligned (List.length data) in
      let b1 := if rw then fst (buf_write (reset_write b0) data) else b0 in
      let '(h1, (e1, (p1, mem))) := win_io S h {| wc_handle := hd; wc_code := direct; wc_in := hdr baddr (zeros n); wc_outlen := N.of_nat n;
                                                  wc_target := TBounce; wc_mem := a_data b1 |} in
      match e1 with
      | None =>
        if rw then (h1, Ok (None, (data, p1)))
        else match snd (buf_read (reset_read (with_data b1 mem)) (List.length data)) with
             | Ok got => (h1, Ok (None, (fill data got, p1)))
             | Err _ => (h1, Ok (None, (data, p1)))
             | Panic => (h1, Panic)
             | Fuel => (h1, Fuel)
             end
      | Some _ => second h1 data p1
      end
    | _ => (h, Panic)
    end
  end.

(** ata_driver.go:22-26, 83-108, 113: ATA_PASS_THROUGH_DIRECT (ata_types.go:3-16) as laid out in memory; [old] is its previous content,
    which supplies the fields the code does not assign *)
Definition sizeof_ata_params : nat := 48.
Definition ata_flags (rw lba48 : bool) : N := N.lor (ternary rw 4 2) (if lba48 then 8 else 0).
Definition ata_params (rw : bool) (t : tf) (len : N) (secs : Z) (ptr : N) (old : bytes) : bytes :=
  let ext := negb (t_lba48 t =? 0) in
  le_bytes 2 48 ++ le_bytes 2 (ata_flags rw ext) ++ slice 4 4 old ++ le_bytes 4 (len mod 2 ^ 32) ++ le_bytes 4 (to_uint32 secs)
  ++ slice 16 8 old ++ le_bytes 8 ptr
  ++ (if ext then [g_feat (t_hob t); g_nsect (t_hob t); g_lbal (t_hob t); g_lbam (t_hob t); g_lbah (t_hob t); 0; 0; 0] else slice 32 8 old)
  ++ [g_feat (t_lob t); g_nsect (t_lob t); g_lbal (t_lob t); g_lbam (t_lob t); g_lbah (t_lob t); t_dev t; t_command t mod 256; 0].

(** ata_driver.go:71-181; the task file is not written back, dma is not used.  Result: error and data. *)
Definition win_ata (S : wsys) (h : whist) (hd : N) (rw dma : bool) (t : tf) (data : bytes) (addr baddr : N) (secs : Z)
  : whist * res (option err * bytes) :=
  let data0 := if rw then zeros (List.length data) else data in                   (* 74-78 *)
  let '(h1, r) := win_tries S h hd IOCTL_ATA_PASS_THROUGH_DIRECT IOCTL_ATA_PASS_THROUGH (ata_params rw t (blen data) secs) sizeof_ata_params
                    false rw data0 addr baddr in
  match r with
  | Ok (None, (d, p)) =>                                                          (* 170-178 *)
    let status := nth 46 p 0 in
    if negb (N.land status (N.lor 1 8) =? 0) then (h1, Ok (Some (EDparm "ATA Status: %02x" status []), d)) else (h1, Ok (None, d))
  | Ok (Some e, (d, _)) => (h1, Ok (Some e, d))
  | Err e => (h1, Err e) | Panic => (h1, Panic) | Fuel => (h1, Fuel)
  end.

(** scsi_types.go:3-23 (SCSI_PASS_THROUGH_DIRECT_WITH_SENSE_BUF: 56 bytes, 4 bytes filter, 32 sense bytes at 60, 4 bytes tail padding),
    scsi_driver.go:77-81, 104-107, 131-140, 145: the parameters; bytes not assigned keep their previous content *)
Definition sizeof_scsi_params : nat := 96.
Definition scsi_params (rw : bool) (cdb : bytes) (len : N) (secs : Z) (ptr : N) (old : bytes) : bytes :=
  le_bytes 2 56 ++ slice 2 4 old ++ [blen cdb mod 256; 32; ternary rw 0 1] ++ slice 9 3 old ++ le_bytes 4 (len mod 2 ^ 32)
  ++ le_bytes 4 (to_uint32 secs) ++ slice 20 4 old ++ le_bytes 8 ptr ++ le_bytes 4 60 ++ cdb ++ skipn (36 + List.length cdb) old.
(** scsi_driver.go:202-218, 348-364; the message's numbers are not rendered *)
Definition win_sense_error (p : bytes) : option err :=
  let si := firstn 18 (slice 60 32 p) in
  if negb (get_sense_key si =? 0) then Some (EDparm "SCSI status, Sense key, ASC, ASCQ" (nth 2 p 0) si) else None.
(** the common part of scsi_driver.go:64-219 and 248-365 *)
Definition win_scsi (S : wsys) (h : whist) (hd : N) (rw : bool) (cdb : bytes) (data : bytes) (addr baddr : N) (secs : Z)
  : whist * res (option err * bytes) :=
  let data0 := if rw then zeros (List.length data) else data in                   (* 68-72, 251-255 *)
  let '(h1, r) := win_tries S h hd IOCTL_SCSI_PASS_THROUGH_DIRECT IOCTL_SCSI_PASS_THROUGH (scsi_params rw cdb (blen data) secs) sizeof_scsi_params
                    true rw data0 addr baddr in
  match r with
  | Ok (None, (d, p)) => (h1, Ok (win_sense_error p, d))
  | Ok (Some e, (d, _)) => (h1, Ok (Some e, d))
  | Err e => (h1, Err e) | Panic => (h1, Panic) | Fuel => (h1, Fuel)
  end.
(** scsi_driver.go:83-138: neither CDB's flag bytes are ever set; plat_win/ata_passthu_types.go is plat_linux/types_ata_passthu.go *)
Definition win_task_cdb (t : tf) : bytes := if negb (t_lba48 t =? 0) then pack16 cdbf0 t else pack12 cdbf0 t.
(** scsi_driver.go:64-219; dma is not used *)
Definition win_task_file (S : wsys) (h : whist) (hd : N) (rw dma : bool) (t : tf) (data : bytes) (addr baddr : N) (secs : Z) :=
  win_scsi S h hd rw (win_task_cdb t) data addr baddr secs.
(** scsi_driver.go:248-365; dma is not used *)
Definition win_security (S : wsys) (h : whist) (hd : N) (rw dma : bool) (protocol comId : N) (data : bytes) (addr baddr : N) (secs : Z) :=
  win_scsi S h hd rw (pack_security (if rw then 0xB5 else 0xA2) protocol comId 0 0 (blen data mod 2 ^ 32) 0 0) data addr baddr secs.

(** ata_driver.go:49-69 and scsi_driver.go:42-62: IDENTIFY DEVICE into an aligned buffer at [addr]; the identity *)
Definition win_identify_tf : tf :=
  {| t_dev := 0; t_command := 0xec; t_error := 0; t_status := 0; t_lba48 := 0; t_lob := regs0; t_hob := regs0 |}.
Definition identity_of (d : bytes) : bytes :=
  match snd (buf_read (reset_read (with_data (new_aligned 512) d)) 512) with Ok got => fill (zeros 512) got | _ => zeros 512 end.
Definition finish_open (r : whist * res (option err * bytes)) : whist * res bytes :=
  match r with
  | (h1, Ok (None, d)) => (h1, Ok (identity_of d))
  | (h1, Ok (Some e, _)) => (h1, Err e)
  | (h1, Err e) => (h1, Err e) | (h1, Panic) => (h1, Panic) | (h1, Fuel) => (h1, Fuel)
  end.
Definition win_ata_open (S : wsys) (h : whist) (hd addr baddr : N) : whist * res bytes :=
  finish_open (win_ata S h hd false false win_identify_tf (a_data (new_aligned 512)) addr baddr 10).
Definition win_scsi_open (S : wsys) (h : whist) (hd addr baddr : N) : whist * res bytes :=
  finish_open (win_task_file S h hd false false win_identify_tf (a_data (new_aligned 512)) addr baddr 3).
