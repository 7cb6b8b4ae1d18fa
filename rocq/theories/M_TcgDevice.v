(** Model of tcg/drive_handle.go, tcg/device.go and the accessors of tcg/device_opal.go, tcg/device_enterprise.go. *)
From Verif Require Import Base M_TcgToken M_Buffer M_TcgCommand.

(** ---- the outside world ---- *)

(** Calls that leave the package: reading the clock, sleeping, SecurityCommand of the drive handle
    (tcg/drive_handle.go:19-22). *)
Inductive ev : Type :=
| EvNow
| EvSleep (ns : N)
| EvSec (rw dma : bool) (protocol comId : N) (buffer : bytes) (timeoutSecs : N).

Definition hist := list ev.   (* oldest first *)

(** The environment answers as an arbitrary function of the calls made so far (the current one included):
    clock readings in nanoseconds, SecurityCommand's error and the bytes it leaves in the buffer.
    [e_pbkdf2 password salt] is pbkdf2.Key(.,.,75000,32,sha1.New).  [e_heap] is memory behind a response buffer.
    [e_fuel] bounds the number of poll rounds the model executes ([Fuel] when exceeded). *)
Record env := {
  e_clock : hist -> N;
  e_sec : hist -> option err * bytes;
  e_pbkdf2 : bytes -> bytes -> bytes;
  e_heap : N -> N;
  e_fuel : nat
}.

(** Bytes in a slice after the callee stored [new] from its start: the length never changes. *)
Definition fill (old new : bytes) : bytes :=
  firstn (List.length old) new ++ skipn (List.length new) old.

(** ---- discovery record: tcg/drive_handle.go:6-17 ---- *)
Record level0 := {
  l_tper : bool; l_locking : bool; l_geometry : bool; l_opal1 : bool; l_opal2 : bool;
  l_enterprise : bool; l_single_user : bool; l_data_store : bool;
  l_raw : list (N * bytes)          (* map[uint16][]byte, latest binding first *)
}.

Fixpoint raw_lookup (m : list (N * bytes)) (code : N) : option bytes :=
  match m with
  | [] => None
  | (c, d) :: m' => if c =? code then Some d else raw_lookup m' code
  end.

(** tcg/types.go feature codes (FcLocking etc.) *)
Definition FcTPer : N := 0x0001.
Definition FcLocking : N := 0x0002.
Definition FcGeometryReporting : N := 0x0003.
Definition FcEnterprise : N := 0x0100.
Definition FcOpalSscV100 : N := 0x0200.
Definition FcSingleUser : N := 0x0201.
Definition FcDataStore : N := 0x0202.
Definition FcOpalSscV200 : N := 0x0203.

(** tcg/device.go:9-17 *)
Inductive dkind : Type := KGeneric | KOpal1 | KOpal2 | KEnterprise.
Definition device_type_code (k : dkind) : N :=
  match k with KGeneric => 1 | KOpal1 => 2 | KOpal2 => 3 | KEnterprise => 4 end.

(** tcg/device.go:43-46 with its TcgDriveHandle (drive_handle.go:24-37).  [d_beyond code i] is the byte found [i] bytes
    after the start of a descriptor that is shorter than [i] (unsafe reads past the slice). *)
Record device := { d_kind : dkind; d_info : level0; d_serial : bytes; d_beyond : N -> N -> N }.

(** tcg/device.go:48-81; the error result is always nil *)
Definition new_tcg_device (info : level0) (serial : bytes) (beyond : N -> N -> N) : res device :=
  let mk k := Ok {| d_kind := k; d_info := info; d_serial := serial; d_beyond := beyond |} in
  if l_opal1 info then mk KOpal1
  else if l_opal2 info then mk KOpal2
  else if l_enterprise info then mk KEnterprise
  else mk KGeneric.

(** tcg/device.go:83-89 and the GetDeviceType overrides (device_opal.go:17-19,65-67, device_enterprise.go:12-14) *)
Definition get_serial (d : device) : bytes := d_serial d.
Definition get_device_type (d : device) : N := device_type_code (d_kind d).

(** tcg/device.go:91-93, overridden only by device_opal.go:13-15 and 61-63 *)
Definition is_any_ssc (d : device) : bool :=
  match d_kind d with KOpal1 | KOpal2 => true | KGeneric | KEnterprise => false end.

(** tcg/device.go:95-97 *)
Definition is_locking_supported (d : device) : bool := l_locking (d_info d).

(** Byte [i] of a descriptor through an unsafe pointer to data[0]: taking &data[0] of an empty slice panics. *)
Definition feature_byte (d : device) (code : N) (data : bytes) (i : nat) : res N :=
  match data with
  | [] => Panic
  | _ => Ok (match nth_error data i with Some b => b | None => d_beyond d code (N.of_nat i) end)
  end.

(** tcg/device.go:99-172: the five queries differ only in the shift *)
Definition locking_bit (shift : N) (d : device) : res bool :=
  if negb (l_locking (d_info d)) then Ok false
  else match raw_lookup (l_raw (d_info d)) FcLocking with
       | None => Ok false
       | Some data =>
         match feature_byte d FcLocking data 4 with
         | Ok b => Ok (negb (N.land (N.shiftr b shift) 0x01 =? 0))
         | Err e => Err e | Panic => Panic | Fuel => Fuel
         end
       end.
Definition is_locking_enabled := locking_bit 1.   (* tcg/device.go:99-112 *)
Definition is_locked := locking_bit 2.            (* tcg/device.go:114-127 *)
Definition is_mbr_enabled := locking_bit 4.       (* tcg/device.go:129-142 *)
Definition is_mbr_done := locking_bit 5.          (* tcg/device.go:144-157 *)
Definition is_media_encryption := locking_bit 3.  (* tcg/device.go:159-172 *)

(** tcg/device.go:209-215, device_opal.go:21-43,69-91, device_enterprise.go:16-38:
    big-endian 16 bits at offset 4 (base) or 6 (number) of the descriptor of the device's own feature code *)
Definition ssc_code (k : dkind) : option N :=
  match k with
  | KGeneric => None
  | KOpal1 => Some FcOpalSscV100
  | KOpal2 => Some FcOpalSscV200
  | KEnterprise => Some FcEnterprise
  end.
Definition feature_be16 (d : device) (off : nat) : res N :=
  match ssc_code (d_kind d) with
  | None => Ok 0
  | Some code =>
    match raw_lookup (l_raw (d_info d)) code with
    | None => Ok 0
    | Some data =>
      match feature_byte d code data off, feature_byte d code data (off + 1) with
      | Ok hi, Ok lo => Ok (N.lor (N.shiftl hi 8) lo)
      | _, _ => Panic
      end
    end
  end.
Definition get_base_com_id (d : device) : res N := feature_be16 d 4.
Definition get_num_com_ids (d : device) : res N := feature_be16 d 6.

(** ---- Exec: tcg/device.go:174-207 ---- *)

(** A ( *TcgResponse, error ) result pair; nil is None. *)
Definition pair_out : Type := option response * option err.

Definition timeout_ns : N := 10000000000.   (* 10000 * time.Millisecond *)
Definition poll_sleep_ns : N := 25000000.   (* 25 * time.Millisecond *)

(** header.Cp.Outstanding at offset 8 and MinTransfer at 12; only compared with zero, so byte order is irrelevant *)
Definition keep_polling (r : response) : bool :=
  negb (be32_at 8 (r_buf r) =? 0) && (be32_at 12 (r_buf r) =? 0).

Definition uint_since (now begin : N) : N := now - begin.

(** tcg/device.go:187-200, one call per loop test; [first] is the Go variable *)
Fixpoint exec_loop (E : env) (d : device) (protocol : N) (beginAt : N) (fuel : nat)
         (first : bool) (resp : response) (h : hist) : hist * res pair_out :=
  if first || keep_polling resp then
    match fuel with
    | O => (h, Fuel)
    | S f =>
      let h1 := h ++ [EvNow] in
      let spentTime := uint_since (e_clock E h1) beginAt in
      let h2 := h1 ++ [EvSleep poll_sleep_ns] in
      let resp1 := resp_reset resp in
      match get_base_com_id d with
      | Ok comId =>
        let h3 := h2 ++ [EvSec false false protocol comId (r_buf resp1) 5] in
        let (e, new) := e_sec E h3 in
        let resp2 := {| r_buf := fill (r_buf resp1) new; r_tokens := r_tokens resp1 |} in
        match e with
        | Some err => (h3, Ok (Some resp2, Some err))
        | None =>
          if timeout_ns <? spentTime then (h3, Ok (Some resp2, Some (EMsg "timeout")))
          else exec_loop E d protocol beginAt f false resp2 h3
        end
      | _ => (h2, Panic)
      end
    end
  else
    match commit (e_heap E) resp with
    | (r, Ok _) => (h, Ok (Some r, None))
    | (r, Err e) => (h, Ok (Some r, Some e))
    | (_, Panic) => (h, Panic)
    | (_, Fuel) => (h, Fuel)
    end.

(** tcg/device.go:174-207.  Simplification: bytes a driver stores into the command buffer during the send are not
    propagated back into [c] (the callers in the package drop the command afterwards). *)
Definition exec (E : env) (d : device) (c : cmd) (protocol : N) (h : hist) : hist * res pair_out :=
  let h0 := h ++ [EvNow] in
  let beginAt := e_clock E h0 in
  if negb (is_any_ssc d) then (h0, Ok (None, Some (EMsg "not supported")))
  else match get_base_com_id d with
       | Ok comId =>
         let h1 := h0 ++ [EvSec true false protocol comId (cmd_slice c) 5] in
         match fst (e_sec E h1) with
         | Some err => (h1, Ok (None, Some err))
         | None => exec_loop E d protocol beginAt (e_fuel E) true new_response h1
         end
       | _ => (h0, Panic)
       end.
