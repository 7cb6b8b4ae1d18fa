(** Model of common/drive_handle.go, common/driver.go (interfaces) and common/nvme/default.go. *)
From Verif Require Import Base M_Buffer M_Struc M_Layouts M_Ata M_TcgDevice.

(** nvme/types.go:254-277 PassthruCmd = NvmeAdminCmd.  Simplification: nil and empty DataBuffer are not distinguished. *)
Record admin_cmd := {
  c_opcode : N; c_flags : N; c_rsvd1 : N; c_nsid : N; c_cdw2 : N; c_cdw3 : N; c_metadata : N; c_metadata_len : N;
  c_data_len : N; c_cdw10 : N; c_cdw11 : N; c_cdw12 : N; c_cdw13 : N; c_cdw14 : N; c_cdw15 : N; c_timeout_ms : N;
  c_result : N; c_data_addr : N; c_data : bytes
}.

(** ---- the driver below a drive handle: common/driver.go:24-44 ---- *)
Inductive dcall : Type :=
| CSec (rw dma : bool) (protocol comId : N) (buffer : bytes) (timeoutSecs : N)
| CTask (rw dma : bool) (t : tf) (data : bytes) (timeoutSecs : N)
| CAdmin (c : admin_cmd)
| CLogPage (nsid logId : N) (rae : bool) (size : Z)
| CIdentity
| CClose
| CType
| CName.
Definition dhist := list dcall.   (* oldest first *)

(** The driver is an arbitrary function of the calls made so far (the current one included): error result and the bytes
    it stores from the start of the buffer it was given; task file it leaves behind; identity block; log page. *)
Record drv := {
  v_io : dhist -> option err * bytes;
  v_tf : dhist -> tf;
  v_identity : dhist -> bytes;
  v_log : dhist -> bytes * option err;
  v_type : dhist -> N;
  v_name : dhist -> bytes
}.

(** Which of the two optional interfaces the driver's dynamic type implements. *)
Record dtype := { is_ata : bool; is_nvme : bool }.

(** common/types.go:62-96, the fields drive_handle.go reads or writes; [i_path] stands for the fields it never touches.
    [i_raw_made]: TcgRawFeatures is a non-nil map. *)
Record info := {
  i_path : bytes;
  i_model : bytes; i_serial : bytes; i_fw : bytes; i_raw_serial : bytes;
  i_smart : bool;
  i_ata : option struct_val; i_ata_raw : option bytes;
  i_nvme : option struct_val; i_nvme_raw : option bytes;
  i_ssd : bool; i_weight : N;
  i_support : Z; i_tcg : level0; i_raw_made : bool
}.

(** common/drive_handle.go:17-21 *)
Record dh := { p_dh : option dtype; p_info : info }.

Definition no_level0 : level0 :=
  {| l_tper := false; l_locking := false; l_geometry := false; l_opal1 := false; l_opal2 := false; l_enterprise := false;
     l_single_user := false; l_data_store := false; l_raw := [] |}.
(** A zero DriveInfo with a device path (common/types.go:62-96). *)
Definition new_info (path : bytes) : info :=
  {| i_path := path; i_model := []; i_serial := []; i_fw := []; i_raw_serial := zeros 20; i_smart := false;
     i_ata := None; i_ata_raw := None; i_nvme := None; i_nvme_raw := None; i_ssd := false; i_weight := 0;
     i_support := 0; i_tcg := no_level0; i_raw_made := false |}.

(** Field updates of DriveInfo. *)
Definition set_ata_raw (i : info) (b : bytes) : info :=
  {| i_path := i_path i; i_model := i_model i; i_serial := i_serial i; i_fw := i_fw i; i_raw_serial := i_raw_serial i;
     i_smart := i_smart i; i_ata := i_ata i; i_ata_raw := Some b; i_nvme := i_nvme i; i_nvme_raw := i_nvme_raw i;
     i_ssd := i_ssd i; i_weight := i_weight i; i_support := i_support i; i_tcg := i_tcg i; i_raw_made := i_raw_made i |}.
Definition set_nvme_raw (i : info) (b : bytes) : info :=
  {| i_path := i_path i; i_model := i_model i; i_serial := i_serial i; i_fw := i_fw i; i_raw_serial := i_raw_serial i;
     i_smart := i_smart i; i_ata := i_ata i; i_ata_raw := i_ata_raw i; i_nvme := i_nvme i; i_nvme_raw := Some b;
     i_ssd := i_ssd i; i_weight := i_weight i; i_support := i_support i; i_tcg := i_tcg i; i_raw_made := i_raw_made i |}.
Definition set_support (i : info) (s : Z) : info :=
  {| i_path := i_path i; i_model := i_model i; i_serial := i_serial i; i_fw := i_fw i; i_raw_serial := i_raw_serial i;
     i_smart := i_smart i; i_ata := i_ata i; i_ata_raw := i_ata_raw i; i_nvme := i_nvme i; i_nvme_raw := i_nvme_raw i;
     i_ssd := i_ssd i; i_weight := i_weight i; i_support := s; i_tcg := i_tcg i; i_raw_made := i_raw_made i |}.
Definition set_tcg (i : info) (made : bool) (t : level0) : info :=
  {| i_path := i_path i; i_model := i_model i; i_serial := i_serial i; i_fw := i_fw i; i_raw_serial := i_raw_serial i;
     i_smart := i_smart i; i_ata := i_ata i; i_ata_raw := i_ata_raw i; i_nvme := i_nvme i; i_nvme_raw := i_nvme_raw i;
     i_ssd := i_ssd i; i_weight := i_weight i; i_support := i_support i; i_tcg := t; i_raw_made := made |}.
Definition with_info (p : dh) (i : info) : dh := {| p_dh := p_dh p; p_info := i |}.

(** err.Error(); only compared with "not supported" *)
Definition err_text (e : err) : string :=
  match e with
  | EMsg s => s
  | EFmt s _ => s                       (* simplification: the number is not rendered *)
  | EEOF => "EOF"
  | EUnexpectedEOF => "unexpected EOF"
  | EInvalidParamType => "invalid param type"
  | EIllegalResponse => "illegal response"
  | ETcg _ => "tcg error: "             (* simplification: the number is not rendered *)
  | EDparm msg _ _ => msg
  | ENotSupportThisDriver => "not supported in this driver"
  | EExt _ s => s
  end.

(** strings.Trim(s, trimSet), common/drive_handle.go:15 *)
Definition trim_set : bytes := [0x20; 0x09; 0x0d; 0x0a; 0x00].
Definition in_trim_set (b : N) : bool := existsb (N.eqb b) trim_set.
Fixpoint trim_left (s : bytes) : bytes :=
  match s with [] => [] | b :: t => if in_trim_set b then trim_left t else s end.
Definition trim (s : bytes) : bytes := rev (trim_left (rev (trim_left s))).

(** common/drive_handle.go:134-173.  Result: error and the buffer afterwards. *)
Definition security_command (V : drv) (p : dh) (h : dhist) (rw dma : bool) (protocol comId : N) (buffer : bytes)
           (timeoutSecs : N) : dhist * (option err * bytes) :=
  match p_dh p with
  | None => (h, (Some (EMsg "not supported"), buffer))
  | Some ty =>
    let h1 := h ++ [CSec rw dma protocol comId buffer timeoutSecs] in
    let (e1, new1) := v_io V h1 in
    let buf1 := fill buffer new1 in
    match e1 with
    | None => (h1, (None, buf1))
    | Some err1 =>
      if is_ata ty then
        let t := {| t_dev := 0;
                    t_command := if rw then ternary dma ATA_OP_TRUSTED_SEND_DMA ATA_OP_TRUSTED_SEND
                                 else ternary dma ATA_OP_TRUSTED_RECV_DMA ATA_OP_TRUSTED_RECV;
                    t_error := 0; t_status := 0; t_lba48 := 0;
                    t_lob := {| g_feat := protocol; g_nsect := (blen buffer / 512) mod 256; g_lbal := 0;
                                g_lbam := comId mod 256; g_lbah := N.shiftr comId 8 mod 256 |};
                    t_hob := regs0 |} in
        let h2 := h1 ++ [CTask rw dma t buf1 timeoutSecs] in
        let (e2, new2) := v_io V h2 in
        (h2, (e2, fill buf1 new2))
      else if is_nvme ty then
        let c := {| c_opcode := ternary rw 0x81 0x82; c_flags := 0; c_rsvd1 := 0; c_nsid := 0; c_cdw2 := 0; c_cdw3 := 0;
                    c_metadata := 0; c_metadata_len := 0; c_data_len := blen buffer mod 2 ^ 32;
                    c_cdw10 := N.lor (N.shiftl (N.land protocol 0xff) 24 mod 2 ^ 32)
                                     (N.shiftl (N.land comId 0xffff) 8 mod 2 ^ 32);
                    c_cdw11 := blen buffer mod 2 ^ 32; c_cdw12 := 0; c_cdw13 := 0; c_cdw14 := 0; c_cdw15 := 0;
                    c_timeout_ms := 0; c_result := 0; c_data_addr := 0; c_data := buf1 |} in
        let h2 := h1 ++ [CAdmin c] in
        let (e2, new2) := v_io V h2 in
        (h2, (e2, fill buf1 new2))
      else (h1, (Some err1, buf1))
    end
  end.

(** The flag set for a feature code: common/drive_handle.go:216-233 *)
Definition set_flag (fc : N) (t : level0) : level0 :=
  {| l_tper := (fc =? FcTPer) || l_tper t; l_locking := (fc =? FcLocking) || l_locking t;
     l_geometry := (fc =? FcGeometryReporting) || l_geometry t; l_opal1 := (fc =? FcOpalSscV100) || l_opal1 t;
     l_opal2 := (fc =? FcOpalSscV200) || l_opal2 t; l_enterprise := (fc =? FcEnterprise) || l_enterprise t;
     l_single_user := (fc =? FcSingleUser) || l_single_user t; l_data_store := (fc =? FcDataStore) || l_data_store t;
     l_raw := l_raw t |}.
Definition set_raw (fc : N) (d : bytes) (t : level0) : level0 :=
  {| l_tper := l_tper t; l_locking := l_locking t; l_geometry := l_geometry t; l_opal1 := l_opal1 t; l_opal2 := l_opal2 t;
     l_enterprise := l_enterprise t; l_single_user := l_single_user t; l_data_store := l_data_store t;
     l_raw := (fc, d) :: l_raw t |}.

(** common/drive_handle.go:204-237: the walk over descriptors; [made] says whether the map is non-nil, [u] is
    currentUnion.Buffer.  A slice beyond the 2048-byte buffer and a store into a nil map panic. *)
Fixpoint discovery_loop (fuel : nat) (made : bool) (buf : bytes) (len : nat) (u : bytes) (offset : nat) (t : level0)
  : level0 * res unit :=
  if (offset <? len)%nat then
    match fuel with
    | O => (t, Fuel)
    | S f =>
      let u1 := fill u (skipn offset buf) in
      match struc_unpack struc_default lay_Discovery0BasicFeature u1 with
      | Ok basic =>
        let flen := N.to_nat (field1 "Length" basic) in
        if (List.length buf <? offset + flen + 4)%nat then (t, Panic)
        else
          let item := slice offset (flen + 4) buf in
          let fc := field1 "FeatureCode" basic in
          let t1 := set_flag fc t in
          if negb made then (t1, Panic)
          else discovery_loop f made buf len u1 (offset + flen + 4) (set_raw fc item t1)
      | Err e => (t, Err e)
      | Panic => (t, Panic)
      | Fuel => (t, Fuel)
      end
    end
  else (t, Ok tt).

(** common/drive_handle.go:175-240.  The fuel suffices for every buffer (C34). *)
Definition tcg_discovery0 (V : drv) (p : dh) (h : dhist) : dhist * (dh * res unit) :=
  let '(h1, (e, buf)) := security_command V p h false false 0x01 0x0001 (zeros 2048) 3 in
  match e with
  | Some err =>
    (h1, (with_info p (set_support (p_info p) (if String.eqb (err_text err) "not supported" then (-1)%Z else 0%Z)), Err err))
  | None =>
    let i := set_support (p_info p) 1 in
    let p1 := with_info p i in
    match struc_unpack struc_default lay_Discovery0Header buf with
    | Ok header =>
      let length := field1 "Length" header in
      if N.of_nat (List.length buf) <? length then (h1, (p1, Err (EMsg "invalid data: length overflow")))
      else
        let (t, r) := discovery_loop 513 (i_raw_made i) buf (N.to_nat length) (zeros 16)
                        (struc_sizeof lay_Discovery0Header) (i_tcg i) in
        (h1, (with_info p1 (set_tcg i (i_raw_made i) t), r))
    | Err x => (h1, (p1, Err x))
    | Panic => (h1, (p1, Panic))
    | Fuel => (h1, (p1, Fuel))
    end
  end.

(** common/drive_handle.go:40-42; the field has an even number of bytes, so the swap cannot panic *)
Definition swap_field (n : string) (v : struct_val) : struct_val :=
  match ata_swap_word_endian (field n v) with Ok d => set_field n d v | _ => v end.

(** common/drive_handle.go:28-64: the ATA part of Init after GetIdentity returned [raw] *)
Definition init_ata (i0 : info) (raw : bytes) : info * res unit :=
  let i := set_ata_raw i0 raw in
  match struc_unpack GetStrucOptions lay_IdentityDeviceData raw with
  | Ok id0 =>
    let id := swap_field "FirmwareRevision" (swap_field "SerialNumber" (swap_field "ModelNumber" id0)) in
    let w1 := if N.land (field1 "Word168.A" id) 0xf =? 5 then 1 else 0 in
    let rate := field1 "NominalMediaRotationRate" id in
    let w2 := if (rate =? 0) || (rate =? 1) then w1 + 1 else w1 in
    ({| i_path := i_path i; i_model := trim (field "ModelNumber" id); i_serial := trim (field "SerialNumber" id);
        i_fw := trim (field "FirmwareRevision" id); i_raw_serial := fill (i_raw_serial i) (field "SerialNumber" id);
        i_smart := negb (N.land (field1 "CommandSetSupport.A" id) 1 =? 0) && negb (N.land (field1 "CommandSetActive.A" id) 1 =? 0);
        i_ata := Some id; i_ata_raw := i_ata_raw i; i_nvme := i_nvme i; i_nvme_raw := i_nvme_raw i;
        i_ssd := 0 <? w2; i_weight := w2; i_support := i_support i; i_tcg := i_tcg i; i_raw_made := i_raw_made i |}, Ok tt)
  | Err e => (i, Err e)
  | Panic => (i, Panic)
  | Fuel => (i, Fuel)
  end.

(** common/drive_handle.go:66-83: the NVMe part; struc.Unpack without options *)
Definition init_nvme (i0 : info) (raw : bytes) : info * res unit :=
  let i := set_nvme_raw i0 raw in
  match struc_unpack struc_default lay_IdentifyController raw with
  | Ok id =>
    ({| i_path := i_path i; i_model := trim (field "Mn" id); i_serial := trim (field "Sn" id); i_fw := trim (field "Fr" id);
        i_raw_serial := fill (i_raw_serial i) (field "Sn" id); i_smart := true;
        i_ata := i_ata i; i_ata_raw := i_ata_raw i; i_nvme := Some id; i_nvme_raw := i_nvme_raw i;
        i_ssd := true; i_weight := 0; i_support := i_support i; i_tcg := i_tcg i; i_raw_made := i_raw_made i |}, Ok tt)
  | Err e => (i, Err e)
  | Panic => (i, Panic)
  | Fuel => (i, Fuel)
  end.

Definition with_map (t : level0) : level0 :=
  {| l_tper := l_tper t; l_locking := l_locking t; l_geometry := l_geometry t; l_opal1 := l_opal1 t; l_opal2 := l_opal2 t;
     l_enterprise := l_enterprise t; l_single_user := l_single_user t; l_data_store := l_data_store t; l_raw := [] |}.

(** common/drive_handle.go:85-88: new map, discovery with its error ignored (a panic is not) *)
Definition init_tail (V : drv) (p : dh) (h : dhist) : dhist * (dh * res unit) :=
  let p1 := with_info p (set_tcg (p_info p) true (with_map (i_tcg (p_info p)))) in
  let '(h1, (p2, r)) := tcg_discovery0 V p1 h in
  (h1, (p2, match r with Ok _ | Err _ => Ok tt | Panic => Panic | Fuel => Fuel end)).

(** common/drive_handle.go:27-89; a nil driver implements neither interface *)
Definition init (V : drv) (p : dh) (h : dhist) : dhist * (dh * res unit) :=
  let ty := match p_dh p with Some t => t | None => {| is_ata := false; is_nvme := false |} end in
  let '(h1, (i1, r1)) :=
    if is_ata ty then let h' := h ++ [CIdentity] in (h', init_ata (p_info p) (v_identity V h'))
    else (h, (p_info p, Ok tt)) in
  match r1 with
  | Ok _ =>
    let '(h2, (i2, r2)) :=
      if is_nvme ty then let h' := h1 ++ [CIdentity] in (h', init_nvme i1 (v_identity V h'))
      else (h1, (i1, Ok tt)) in
    match r2 with
    | Ok _ => init_tail V (with_info p i2) h2
    | _ => (h2, (with_info p i2, r2))
    end
  | _ => (h1, (with_info p i1, r1))
  end.

(** common/drive_handle.go:95-100 *)
Definition close (p : dh) (h : dhist) : dhist * dh :=
  match p_dh p with
  | None => (h, p)
  | Some _ => (h ++ [CClose], {| p_dh := None; p_info := p_info p |})
  end.

(** common/drive_handle.go:106-112: a nil interface call panics *)
Definition get_driving_type (V : drv) (p : dh) (h : dhist) : dhist * res N :=
  match p_dh p with None => (h, Panic) | Some _ => let h' := h ++ [CType] in (h', Ok (v_type V h')) end.
Definition get_driver_name (V : drv) (p : dh) (h : dhist) : dhist * res bytes :=
  match p_dh p with None => (h, Panic) | Some _ => let h' := h ++ [CName] in (h', Ok (v_name V h')) end.

(** common/drive_handle.go:118-124; result: error, task file and data afterwards *)
Definition ata_do_task_file_cmd (V : drv) (p : dh) (h : dhist) (rw dma : bool) (t : tf) (data : bytes) (timeoutSecs : N)
  : dhist * (option err * (tf * bytes)) :=
  match p_dh p with
  | Some ty =>
    if is_ata ty then
      let h' := h ++ [CTask rw dma t data timeoutSecs] in
      let (e, new) := v_io V h' in (h', (e, (v_tf V h', fill data new)))
    else (h, (Some ENotSupportThisDriver, (t, data)))
  | None => (h, (Some ENotSupportThisDriver, (t, data)))
  end.

(** common/drive_handle.go:126-132 *)
Definition nvme_get_log_page (V : drv) (p : dh) (h : dhist) (nsid logId : N) (rae : bool) (size : Z)
  : dhist * (bytes * option err) :=
  match p_dh p with
  | Some ty =>
    if is_nvme ty then let h' := h ++ [CLogPage nsid logId rae size] in (h', v_log V h')
    else (h, ([], Some ENotSupportThisDriver))
  | None => (h, ([], Some ENotSupportThisDriver))
  end.

(** common/drive_handle.go:242-244 *)
Definition get_tcg_level0_info_and_serial (p : dh) : level0 * bytes := (i_tcg (p_info p), i_serial (p_info p)).

(** ---- call histories of a drive handle ---- *)
Inductive hop : Type :=
| HInit | HClose | HType | HName | HDiscovery
| HSec (rw dma : bool) (protocol comId : N) (buffer : bytes) (timeoutSecs : N)
| HTask (rw dma : bool) (t : tf) (data : bytes) (timeoutSecs : N)
| HLog (nsid logId : N) (rae : bool) (size : Z).

Inductive hout : Type :=
| OutRes (r : res unit) | OutErr (e : option err) | OutNone | OutVal (r : res N) | OutName (r : res bytes).

Definition hstep (V : drv) (p : dh) (h : dhist) (o : hop) : dhist * (dh * hout) :=
  match o with
  | HInit => let '(h1, (p1, r)) := init V p h in (h1, (p1, OutRes r))
  | HClose => let (h1, p1) := close p h in (h1, (p1, OutNone))
  | HType => let (h1, r) := get_driving_type V p h in (h1, (p, OutVal r))
  | HName => let (h1, r) := get_driver_name V p h in (h1, (p, OutName r))
  | HDiscovery => let '(h1, (p1, r)) := tcg_discovery0 V p h in (h1, (p1, OutRes r))
  | HSec rw dma pr c b t => let '(h1, (e, _)) := security_command V p h rw dma pr c b t in (h1, (p, OutErr e))
  | HTask rw dma t d s => let '(h1, (e, _)) := ata_do_task_file_cmd V p h rw dma t d s in (h1, (p, OutErr e))
  | HLog n l r s => let '(h1, (_, e)) := nvme_get_log_page V p h n l r s in (h1, (p, OutErr e))
  end.

Fixpoint hrun (V : drv) (p : dh) (h : dhist) (ops : list hop) : dhist * (dh * list hout) :=
  match ops with
  | [] => (h, (p, []))
  | o :: ops' =>
    let '(h1, (p1, r)) := hstep V p h o in
    let '(h2, (p2, rs)) := hrun V p1 h1 ops' in (h2, (p2, r :: rs))
  end.

(** ---- common/nvme/default.go:9-50 ---- *)

(** the command built at lines 26-41; lpo = 0, lsi = 0, lsp = NVME_NO_LOG_LSP = 0; [dataSize] is a non-negative int *)
Definition log_page_cmd (nsid logId : N) (rae : bool) (dataSize : N) (data : bytes) : admin_cmd :=
  let numd := Z.to_N ((Z.shiftr (Z.of_N dataSize) 2 - 1) mod 2 ^ 32) in
  let numdh := N.land (N.shiftr numd 16) 0xffff in
  let numdl := N.land numd 0xffff in
  let lsp := 0 in
  let lsi := 0 in
  let lpo := 0 in
  {| c_opcode := 0x02; c_flags := 0; c_rsvd1 := 0; c_nsid := nsid; c_cdw2 := 0; c_cdw3 := 0; c_metadata := 0;
     c_metadata_len := 0; c_data_len := dataSize mod 2 ^ 32;
     c_cdw10 := N.lor (N.lor (N.lor logId (N.shiftl numdl 16 mod 2 ^ 32)) (ternary rae (N.shiftl 1 15) 0)) (N.shiftl lsp 8);
     c_cdw11 := N.lor numdh (N.shiftl lsi 16); c_cdw12 := lpo; c_cdw13 := N.shiftr lpo 32; c_cdw14 := 0; c_cdw15 := 0;
     c_timeout_ms := 0; c_result := 0; c_data_addr := 0; c_data := data |}.

(** lines 17-49; the fuel is a bound on the number of attempts, shown to suffice in C42 *)
Fixpoint log_page_loop (V : drv) (fuel : nat) (nsid logId : N) (rae : bool) (dataSize offset : N) (data : bytes)
         (rootError : option err) (h : dhist) : dhist * res (bytes * option err) :=
  if dataSize <=? offset then (h, Ok (data, rootError))
  else
    match fuel with
    | O => (h, Fuel)
    | S f =>
      let rest := dataSize - offset in
      let xferLen := if 4096 <? rest then 4096 else rest in
      let h1 := h ++ [CAdmin (log_page_cmd nsid logId rae dataSize data)] in
      let (e, new) := v_io V h1 in
      let data1 := fill data new in
      match e with
      | None => (h1, Ok (data1, None))
      | Some _ => log_page_loop V f nsid logId rae dataSize (offset + xferLen) data1 e h1
      end
    end.

(** make([]byte, n) panics for negative n *)
Definition nvme_get_log_page_by_admin_passthru (V : drv) (h : dhist) (nsid logId : N) (rae : bool) (dataSize : Z)
  : dhist * res (bytes * option err) :=
  if (dataSize <? 0)%Z then (h, Panic)
  else let n := Z.to_N dataSize in
       log_page_loop V (N.to_nat (n / 4096 + 1)) nsid logId rae n 0 (zeros (N.to_nat n)) None h.
