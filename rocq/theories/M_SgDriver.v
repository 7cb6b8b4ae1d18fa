(** Model of plat_linux/sg_driver.go and plat_linux/utils.go:79-94 (ioctl). *)
From Verif Require Import Base M_Buffer M_Ata M_TcgDevice M_Cdb.

(** Which memory dxferp designates when the kernel is called. *)
Inductive xfer : Type :=
| XHeader               (* &dataBuffer: the header of an unrelated slice (sg_driver.go:99) *)
| XCaller               (* the caller's own bytes *)
| XBounce               (* a fresh 512-aligned copy *)
| XAddr (a : N).        (* the number a used as an address *)

(** One SG_IO request as the kernel sees it: plat_linux/sg_types.go:3-32.  [sg_mem] is the content of the transfer memory
    at the time of the call ([] where dxferp designates no memory of the transfer).  Fields the code leaves 0 are omitted;
    sb_len_wr, status, resid... are outputs only, so their input values are omitted too. *)
Record sg_call := {
  sg_dir : Z; sg_cdb : bytes; sg_mx_sb : N; sg_len : N; sg_where : xfer; sg_mem : bytes; sg_timeout_ms : N; sg_pack_id : Z
}.
Definition sg_hist := list sg_call.   (* oldest first *)

(** The answer of the kernel and the device: raw system call results, data-in phase bytes, sense bytes offered, SCSI status
    stored (None: header not written back). *)
Record sg_ans := { an_errno : N; an_ret : N; an_in : bytes; an_sense : bytes; an_status : option N }.
Definition kern := sg_hist -> sg_ans.

(** plat_linux/sg_types.go:70-72 *)
Definition SG_DXFER_NONE : Z := -1.
Definition SG_DXFER_TO_DEV : Z := -2.
Definition SG_DXFER_FROM_DEV : Z := -3.

(** unix.Errno(k); its text is not modelled *)
Definition errno (k : N) : err := EExt k "".

(** plat_linux/utils.go:79-94 *)
Definition ioctl_result (e ret : N) : option err :=
  if negb (e =? 0) then Some (errno e) else if negb (ret =? 0) then Some (errno ret) else None.

(** The part of SG_IO_HDR_WITH_SENSE_BUF the kernel writes. *)
Record sg_state := { s_sense : bytes; s_status : N }.
Definition sg_state0 : sg_state := {| s_sense := zeros 32; s_status := 0 |}.

(** One ioctl(SG_IO).  Documented kernel behaviour (environment): at most mx_sb_len sense bytes are stored, transfer memory is
    written only when the direction is FROM_DEV. *)
Definition sg_ioctl (K : kern) (h : sg_hist) (c : sg_call) (s : sg_state) : sg_hist * (option err * (bytes * sg_state)) :=
  let h1 := h ++ [c] in
  let a := K h1 in
  (h1, (ioctl_result (an_errno a) (an_ret a),
        (if Z.eqb (sg_dir c) SG_DXFER_FROM_DEV then fill (sg_mem c) (an_in a) else sg_mem c,
         {| s_sense := fill (s_sense s) (firstn (N.to_nat (sg_mx_sb c)) (an_sense a));
            s_status := match an_status a with Some x => x | None => s_status s end |}))).

(** unsafe.Sizeof(SG_IO_HDR_WITH_SENSE_BUF{}) on a 64-bit platform: 88 (header) + 4 (Filter) + 32 (SenseData), rounded up to
    a multiple of 8; plat_linux/sg_types.go:3-32 *)
Definition sizeof_sg : N := 128.

(** The loop body shared by sg_driver.go:95-241 and sg_driver.go:324-395 from the moment the header and the CDB are
    filled in (both attempts fill them in identically, from variables the loop does not change): [mk where mem] is the
    request.  [addr] is the address of data[0].  Result: rootError, data afterwards, header state. *)
Definition sg_tries (K : kern) (h : sg_hist) (mk : xfer -> bytes -> sg_call) (rw : bool) (data : option bytes) (addr : N)
  : sg_hist * res (option err * (option bytes * sg_state)) :=
  let second (h1 : sg_hist) (data1 : option bytes) (s1 : sg_state) :=
    (* sg_driver.go:221-240, 377-394: the request points at address sizeof; the copy in [buffer] is never seen by the kernel,
       and on success the saved header (state before this call) and the saved data are copied back *)
    let '(h2, (e2, (_, s2))) := sg_ioctl K h1 (mk (XAddr sizeof_sg) []) s1 in
    match e2 with
    | Some e => (h2, Ok (Some e, (data1, s2)))
    | None => (h2, Ok (None, (data1, s1)))
    end in
  match data with
  | None =>
    (* sg_driver.go:99, 198-220 with data == nil *)
    let '(h1, (e1, (_, s1))) := sg_ioctl K h (mk XHeader []) sg_state0 in
    match e1 with
    | None => (h1, Ok (None, (None, s1)))
    | Some _ => second h1 None s1
    end
  | Some d =>
    match d with
    | [] => (h, Panic)                                            (* &data[0] *)
    | _ =>
      match is_aligned_pointer 512 addr with
      | Ok true =>
        let '(h1, (e1, (mem, s1))) := sg_ioctl K h (mk XCaller d) sg_state0 in
        match e1 with
        | None => (h1, Ok (None, (Some mem, s1)))
        | Some _ => second h1 (Some mem) s1
        end
      | Ok false =>
        let b0 := new_aligned (List.length d) in
        let b1 := if rw then fst (buf_write (reset_write b0) d) else b0 in
        let '(h1, (e1, (mem, s1))) := sg_ioctl K h (mk XBounce (a_data b1)) sg_state0 in
        match e1 with
        | None =>
          if rw then (h1, Ok (None, (data, s1)))
          else match snd (buf_read (reset_read (with_data b1 mem)) (List.length d)) with
               | Ok got => (h1, Ok (None, (Some (fill d got), s1)))
               | Err _ => (h1, Ok (None, (data, s1)))             (* the error of Read is ignored *)
               | Panic => (h1, Panic)
               | Fuel => (h1, Fuel)
               end
        | Some _ => second h1 data s1
        end
      | _ => (h, Panic)
      end
    end
  end.

(** sg_driver.go:34-46; every operand is already within its Go type, so no shift overflows *)
Definition tf_to_lba (t : tf) : N :=
  let lba24 := N.lor (N.lor (N.shiftl (g_lbah (t_lob t)) 16) (N.shiftl (g_lbam (t_lob t)) 8)) (g_lbal (t_lob t)) in
  let lbah := if negb (t_lba48 t =? 0)
              then N.lor (N.lor (N.shiftl (g_lbah (t_hob t)) 16) (N.shiftl (g_lbam (t_hob t)) 8)) (g_lbal (t_hob t))
              else N.land (t_dev t) 0x0f in
  N.lor (N.shiftl lbah 24) lba24.

(** int32(x) *)
Definition to_int32 (x : N) : Z :=
  let y := Z.of_N (x mod 2 ^ 32) in if (y <? 2 ^ 31)%Z then y else (y - 2 ^ 32)%Z.
(** uint32(x) for an int *)
Definition to_uint32 (x : Z) : N := Z.to_N (x mod 2 ^ 32)%Z.

(** sg_driver.go:121-134 and 163-175: the flag bytes *)
Definition task_flags (lba48 rw dma has_data : bool) : cdbf :=
  let f0 := if lba48 then with_b01 cdbf0 (N.lor (b01 cdbf0) 1) else cdbf0 in
  let f1 := if dma then set_protocol f0 (ternary has_data 6 3)
            else set_protocol f0 (ternary has_data (ternary rw 5 4) 3) in
  if has_data then set_t_dir (set_byte_block (set_t_length f1 2) true) (negb rw) else set_ck_cond f1 true.

(** sg_driver.go:104-191 *)
Definition task_cdb (rw dma has_data : bool) (t : tf) : bytes :=
  if negb (t_lba48 t =? 0) then pack16 (task_flags true rw dma has_data) t else pack12 (task_flags false rw dma has_data) t.

(** sg_driver.go:96-102, 193-196: the request of a task file command *)
Definition task_request (rw dma : bool) (t : tf) (data : option bytes) (timeoutSecs : Z) (w : xfer) (mem : bytes) : sg_call :=
  let has_data := match data with Some _ => true | None => false end in
  {| sg_dir := if has_data then ternary rw SG_DXFER_TO_DEV SG_DXFER_FROM_DEV else SG_DXFER_NONE;
     sg_cdb := task_cdb rw dma has_data t;
     sg_mx_sb := 32;
     sg_len := match data with Some d => blen d mod 2 ^ 32 | None => 0 end;
     sg_where := w; sg_mem := mem;
     sg_timeout_ms := to_uint32 timeoutSecs;
     sg_pack_id := to_int32 (tf_to_lba t) |}.

(** sg_driver.go:243-256 and 397-410; the message's numbers are not rendered *)
Definition sense_error (s : sg_state) : option err :=
  let si := firstn 18 (s_sense s) in
  if negb (get_sense_key si =? 0) then Some (EDparm "SCSI status, Sense key, ASC, ASCQ" (s_status s) si) else None.

(** sg_driver.go:259-280 *)
Definition task_result (s : sg_state) (t : tf) : tf :=
  let desc i := nth (8 + i) (s_sense s) 0 in
  let lba48 := N.land (desc 2%nat) 1 in
  let ext := negb (lba48 =? 0) in
  {| t_dev := desc 12%nat; t_command := t_command t; t_error := desc 3%nat; t_status := desc 13%nat; t_lba48 := lba48;
     t_lob := {| g_feat := g_feat (t_lob t); g_nsect := desc 5%nat; g_lbal := desc 7%nat; g_lbam := desc 9%nat; g_lbah := desc 11%nat |};
     t_hob := {| g_feat := 0; g_nsect := if ext then desc 4%nat else 0; g_lbal := if ext then desc 6%nat else 0;
                 g_lbam := if ext then desc 8%nat else 0; g_lbah := if ext then desc 10%nat else 0 |} |}.

(** sg_driver.go:82-283.  [addr] is the address of data[0]. *)
Definition sg_task_file (K : kern) (h : sg_hist) (rw dma : bool) (t : tf) (data : option bytes) (addr : N) (timeoutSecs : Z)
  : sg_hist * res (option err * (tf * option bytes)) :=
  let data0 := if rw then option_map (fun d => zeros (List.length d)) data else data in       (* 86-90 *)
  let '(h1, r) := sg_tries K h (task_request rw dma t data timeoutSecs) rw data0 addr in
  match r with
  | Ok (e, (d, s)) =>
    match (match e with None => sense_error s | Some _ => None end) with
    | Some x => (h1, Ok (Some x, (t, d)))
    | None => (h1, Ok (e, (task_result s t, d)))
    end
  | Err x => (h1, Err x)
  | Panic => (h1, Panic)
  | Fuel => (h1, Fuel)
  end.

(** sg_driver.go:325-354: mx_sb_len stays 0 (line 328 sets the output field SbLenWr instead) *)
Definition security_request (rw : bool) (protocol comId : N) (data : bytes) (timeoutSecs : Z) (w : xfer) (mem : bytes) : sg_call :=
  {| sg_dir := ternary rw SG_DXFER_TO_DEV SG_DXFER_FROM_DEV;
     sg_cdb := pack_security (if rw then 0xB5 else 0xA2) protocol comId 0 0 (blen data mod 2 ^ 32) 0 0;
     sg_mx_sb := 0;
     sg_len := blen data mod 2 ^ 32;
     sg_where := w; sg_mem := mem;
     sg_timeout_ms := (to_uint32 timeoutSecs * 1000) mod 2 ^ 32;
     sg_pack_id := 0 |}.

(** sg_driver.go:313-414.  A nil buffer behaves like an empty one (both panic at &data[0]); dma is not used. *)
Definition sg_security (K : kern) (h : sg_hist) (rw dma : bool) (protocol comId : N) (data : bytes) (addr : N) (timeoutSecs : Z)
  : sg_hist * res (option err * bytes) :=
  let data0 := if rw then data else zeros (List.length data) in                                (* 316-320 *)
  let '(h1, r) := sg_tries K h (security_request rw protocol comId data timeoutSecs) rw (Some data0) addr in
  match r with
  | Ok (e, (d, s)) =>
    let d' := match d with Some x => x | None => data0 end in
    match (match e with None => sense_error s | Some _ => None end) with
    | Some x => (h1, Ok (Some x, d'))
    | None => (h1, Ok (e, d'))
    end
  | Err x => (h1, Err x)
  | Panic => (h1, Panic)
  | Fuel => (h1, Fuel)
  end.

(** sg_driver.go:60-80; [addr] is the address of the aligned buffer's first byte.  Result: the identity of the new handle. *)
Definition identify_tf : tf :=
  {| t_dev := 0; t_command := 0xec; t_error := 0; t_status := 0; t_lba48 := 0;
     t_lob := {| g_feat := 0; g_nsect := 1; g_lbal := 0; g_lbam := 0; g_lbah := 0 |}; t_hob := regs0 |}.
Definition sg_open (K : kern) (h : sg_hist) (addr : N) : sg_hist * res bytes :=
  let '(h1, r) := sg_task_file K h false false identify_tf (Some (a_data (new_aligned 512))) addr 3 in
  match r with
  | Ok (None, (_, d)) =>
    match snd (buf_read (reset_read (with_data (new_aligned 512) (match d with Some x => x | None => [] end))) 512) with
    | Ok got => (h1, Ok (fill (zeros 512) got))
    | _ => (h1, Ok (zeros 512))
    end
  | Ok (Some e, _) => (h1, Err e)
  | Err e => (h1, Err e)
  | Panic => (h1, Panic)
  | Fuel => (h1, Fuel)
  end.
