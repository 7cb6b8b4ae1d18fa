(** Model of tcg/command.go and tcg/utils.go. *)
From Verif Require Import Base M_TcgToken M_Buffer.

(** tcg/types.go:10 *)
Definition MAX_BUFFER_LENGTH : N := 61440.
(** tcg/types.go:462-468,501 *)
Definition STARTLIST : Z := 0xf0.
Definition ENDLIST : Z := 0xf1.
Definition STARTNAME : Z := 0xf2.
Definition ENDNAME : Z := 0xf3.
Definition CALL : Z := 0xf8.
Definition ENDOFDATA : Z := 0xf9.
Definition ENDOFSESSION : Z := 0xfa.
Definition BYTESTRING8 : Z := 0xa8.
(** tcg/types.go:398-399,411,478-481 *)
Definition STARTCOLUMN : Z := 0x03.
Definition ENDCOLUMN : Z := 0x04.
Definition CREDENTIAL_PIN : N := 0x03.
Definition UINT_00 : Z := 0.
Definition UINT_01 : Z := 1.
Definition UINT_03 : Z := 3.

(** Go conversion uint8(v) of an int *)
Definition u8 (v : Z) : N := Z.to_N (v mod 256).

(** tcg/command.go:15-19: the command is its aligned buffer; Header and CmdPtr are views of it. *)
Notation cmd := abuf.

(** tcg/command.go:25-33 *)
Definition new_command : cmd := new_aligned (N.to_nat MAX_BUFFER_LENGTH).

Definition drop_val {A} (x : cmd * res A) : cmd * res unit :=
  (fst x, match snd x with Ok _ => Ok tt | Err e => Err e | Panic => Panic | Fuel => Fuel end).

(** tcg/command.go:35-37 *)
Definition add_byte_token (c : cmd) (data : N) : cmd * res unit := write_byte c data.

(** tcg/command.go:39-42 *)
Definition cmd_reset (c : cmd) : cmd := set_wpos (buf_reset c) (N.to_nat OPAL_HEADER_SIZE).

(** tcg/command.go:71-75 *)
Definition add_raw_token (c : cmd) (data : bytes) : cmd * res unit := drop_val (buf_write c data).

(** tcg/command.go:101-136; [length] is the optional variadic argument (only its first element is used) *)
Definition add_string_token (c : cmd) (text : bytes) (length : option Z) : cmd * res unit :=
  let len0 := match length with Some l => l | None => Z.of_nat (List.length text) end in
  let lengthVar := if (len0 <? 0)%Z then Z.of_nat (List.length text) else len0 in
  if (lengthVar =? 0)%Z then drop_val (buf_write c [0xa1; 0x00])
  else if (lengthVar <? 16)%Z then
    drop_val (buf_write c (u8 (Z.lor lengthVar 0xa0) :: text))
  else if (lengthVar <? 2048)%Z then
    drop_val (buf_write c (u8 (Z.lor 0xd0 (Z.land (Z.shiftr lengthVar 8) 0x07)) :: u8 lengthVar :: text))
  else (c, Ok tt).

(** tcg/types.go:537-546: the values accepted by AddToken; [TNone] is a nil interface.  An OpalUID or
    OpalMethod is an array of 8 bytes. *)
Inductive token : Type :=
| TOpalUID (v : bytes) | TOpalMethod (v : bytes)
| TOpalToken (v : Z) | TTinyAtom (v : Z) | TShortAtom (v : Z) | TLockingState (v : Z)
| TNone.

(** tcg/command.go:78-99 *)
Definition add_token (c : cmd) (t : token) : cmd * res unit :=
  match t with
  | TOpalUID v =>
    match add_byte_token c (u8 BYTESTRING8) with
    | (c', Ok _) => add_raw_token c' v
    | (c', e) => (c', e)
    end
  | TOpalMethod v => add_string_token c v (Some (Z.of_nat (List.length v)))
  | TOpalToken v | TTinyAtom v | TShortAtom v | TLockingState v => add_byte_token c (u8 v)
  | TNone => (c, Err EInvalidParamType)
  end.

(** tcg/command.go:166-169: temp[startat-i] = uint8(value >> (i*8)) for i = startat .. 0 *)
Definition number_bytes (startat : nat) (value : N) : bytes :=
  map (fun k => N.shiftr value (N.of_nat (startat - k) * 8) mod 256) (seq 0 (startat + 1)).

(** tcg/command.go:138-177 *)
Definition add_number_token (c : cmd) (value : N) : cmd * res unit :=
  if value <? 64 then write_byte c (N.land value 0x3f)
  else
    let '(hdr, startat) :=
      if value <? 0x100 then (0x81, 0%nat)
      else if value <? 0x10000 then (0x82, 1%nat)
      else if value <? 0x100000000 then (0x84, 3%nat)
      else (0x88, 7%nat) in
    match write_byte c hdr with
    | (c', Ok _) => drop_val (buf_write c' (number_bytes startat value))
    | (c', e) => (c', e)
    end.

(** tcg/command.go:45 argument types (tcg/types.go:313-321); [IOther]/[MOther]: nil or a type outside the switch
    (OpalMethod also implements invokingUid()). *)
Inductive invoking : Type := IUid (v : bytes) | IBuf (v : bytes) | IOther.
Inductive cmethod : Type := MMethod (v : bytes) | MBuf (v : bytes) | MOther.

(** tcg/command.go:45-69 (errors of the inner calls are discarded there) *)
Definition cmd_init (c : cmd) (invokingUid : invoking) (method : cmethod) : cmd * res unit :=
  let c := cmd_reset c in
  match add_byte_token c (u8 CALL) with
  | (c1, Ok _) =>
    let with_method (c2 : cmd) :=
      match method with
      | MMethod m => let c3 := fst (write_byte c2 (u8 BYTESTRING8)) in (fst (buf_write c3 m), Ok tt)
      | MBuf m => (fst (add_raw_token c2 m), Ok tt)
      | MOther => (c2, Ok tt)
      end in
    match invokingUid with
    | IUid uid => with_method (fst (add_token c1 (TOpalUID uid)))
    | IBuf uid => with_method (fst (add_raw_token c1 uid))
    | IOther => (c1, Err EInvalidParamType)
    end
  | (c1, e) => (c1, e)
  end.

(** uint32 subtraction *)
Definition sub32 (a b : N) : N := (a + 2 ^ 32 - b mod 2 ^ 32) mod 2 ^ 32.

(** tcg/command.go:199-203: zero bytes until the position is a multiple of 4 *)
Fixpoint pad_loop (fuel : nat) (c : cmd) : cmd * res unit :=
  if N.land (N.of_nat (a_wpos c)) 3 =? 0 then (c, Ok tt)
  else match fuel with
       | O => (c, Fuel)
       | S f => match write_byte c 0 with (c', Ok _) => pad_loop f c' | (c', e) => (c', e) end
       end.

(** tcg/command.go:179-213.  struc.Unpack/Pack of OpalHeader (tcg/types.go:266-294, all fields big-endian) is
    the identity on the 56 header bytes except for the three assigned length fields at 16, 40 and 52.  (For a limit below 56, which the
    package never sets before Complete, struc would fail with EOF instead of ErrUnexpectedEOF at a field boundary.) *)
Definition complete (c : cmd) (eod : option bool) : cmd * res unit :=
  let eodVar := match eod with Some b => b | None => true end in
  let step1 := if eodVar then drop_val (buf_write c [u8 ENDOFDATA; u8 STARTLIST; 0; 0; 0; u8 ENDLIST]) else (c, Ok tt) in
  match step1 with
  | (c1, Ok _) =>
    let c2 := reset_read c1 in
    if (a_limit c2 =? 0)%nat then (c2, Err EEOF)
    else if (a_limit c2 <? 56)%nat then (set_rpos c2 (a_limit c2), Err EUnexpectedEOF)
    else
      let header := slice 0 56 (a_data c2) in
      let c3 := set_rpos c2 56 in
      let header := put 52 (be_bytes 4 (sub32 (N.of_nat (a_wpos c3) mod 2 ^ 32) 56)) header in
      match pad_loop 3 c3 with
      | (c4, Ok _) =>
        let pos := N.of_nat (a_wpos c4) mod 2 ^ 32 in
        let header := put 40 (be_bytes 4 (sub32 (sub32 pos 20) 24)) header in
        let header := put 16 (be_bytes 4 (sub32 pos 20)) header in
        let c5 := reset_write c4 in
        drop_val (buf_write c5 header)
      | (c4, e) => (c4, e)
      end
  | (c1, e) => (c1, e)
  end.

(** tcg/command.go:215-217: copy into ExtendedComID (header offset 4) *)
Definition set_com_id (c : cmd) (comId : N) : cmd :=
  with_data c (put 4 [N.shiftr comId 8 mod 256; comId mod 256; 0; 0] (a_data c)).
(** tcg/command.go:219-221: native store into Pkt.Tsn (offset 20); little-endian hosts (amd64, arm64, 386) *)
Definition set_tsn (c : cmd) (tsn : N) : cmd := with_data c (put 20 (le_bytes 4 tsn) (a_data c)).
(** tcg/command.go:223-225: native store into Pkt.Hsn (offset 24) *)
Definition set_hsn (c : cmd) (hsn : N) : cmd := with_data c (put 24 (le_bytes 4 hsn) (a_data c)).

(** tcg/command.go:231-237 *)
Definition get_cmd_size (c : cmd) : N :=
  let pos := N.of_nat (a_wpos c) in
  let x := N.land pos 511 in
  if negb (x =? 0) then (512 - x + pos) mod 2 ^ 32 else pos mod 2 ^ 32.

(** unsafe.Slice(cmd.GetCmdPtr(), cmd.GetCmdSize()), tcg/device.go:182 *)
Definition cmd_slice (c : cmd) : bytes := firstn (N.to_nat (get_cmd_size c)) (a_data c).

(** Builder calls, for histories. *)
Inductive cop : Type :=
| CTok (t : token) | CRaw (d : bytes) | CStr (text : bytes) (length : option Z) | CNum (v : N).
Definition cstep (c : cmd) (o : cop) : cmd * res unit :=
  match o with
  | CTok t => add_token c t
  | CRaw d => add_raw_token c d
  | CStr t l => add_string_token c t l
  | CNum v => add_number_token c v
  end.
Definition crun (c : cmd) (ops : list cop) : cmd := fold_left (fun s o => fst (cstep s o)) ops c.

(** tcg/utils.go:9-24; [pbkdf2 password salt] is pbkdf2.Key(password, salt, 75000, 32, sha1.New) *)
Definition tcg_hash_password (pbkdf2 : bytes -> bytes -> bytes) (serial : bytes)
                             (noHashPassword : bool) (password : bytes) : bytes :=
  let password := if (32 <? List.length password)%nat then firstn 32 password else password in
  if noHashPassword then 0xd0 :: (N.of_nat (List.length password) mod 256) :: password
  else let derived := pbkdf2 password serial in
       0xd0 :: (N.of_nat (List.length derived) mod 256) :: derived.
