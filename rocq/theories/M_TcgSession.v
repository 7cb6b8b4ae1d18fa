(** Model of tcg/session.go and the operations of tcg/device_opal.go, tcg/device_enterprise.go. *)
From Verif Require Import Base M_TcgToken M_Buffer M_TcgCommand M_TcgDevice.

(** tcg/types.go:323-379 *)
Definition SMUID_UID : bytes := [0; 0; 0; 0; 0; 0; 0; 0xff].
Definition THISSP_UID : bytes := [0; 0; 0; 0; 0; 0; 0; 1].
Definition ADMINSP_UID : bytes := [0; 0; 2; 5; 0; 0; 0; 1].
Definition SID_UID : bytes := [0; 0; 0; 9; 0; 0; 0; 6].
Definition PSID_UID : bytes := [0; 0; 0; 9; 0; 1; 0xff; 1].
Definition C_PIN_MSID : bytes := [0; 0; 0; 0x0B; 0; 0; 0x84; 2].
Definition UID_HEXFF : bytes := [0xff; 0xff; 0xff; 0xff; 0xff; 0xff; 0xff; 0xff].
Definition M_STARTSESSION : bytes := [0; 0; 0; 0; 0; 0; 0xff; 2].
Definition M_REVERT : bytes := [0; 0; 0; 6; 0; 0; 2; 2].
Definition M_REVERTSP : bytes := [0; 0; 0; 6; 0; 0; 0; 0x11].
Definition M_GET : bytes := [0; 0; 0; 6; 0; 0; 0; 0x16].
Definition M_AUTHENTICATE : bytes := [0; 0; 0; 6; 0; 0; 0; 0x1c].
Definition M_EAUTHENTICATE : bytes := [0; 0; 0; 6; 0; 0; 0; 0x0c].

(** ASCII text of the string constants *)
Definition ascii_bytes (s : string) : bytes := map (fun c => N.of_nat (Ascii.nat_of_ascii c)) (list_ascii_of_string s).

(** tcg/session.go:12-21 (tcgDevice is passed separately) *)
Record session := {
  s_opened : bool; s_hsn : N; s_tsn : N; s_nohash : bool; s_autoclose : bool; s_timeout : N
}.

(** tcg/session.go:23-29 *)
Definition new_session : session :=
  {| s_opened := false; s_hsn := 0; s_tsn := 0; s_nohash := false; s_autoclose := true; s_timeout := 60000 |}.

(** tcg/session.go:47-57 *)
Definition set_no_hash_password (s : session) (b : bool) : session :=
  {| s_opened := s_opened s; s_hsn := s_hsn s; s_tsn := s_tsn s; s_nohash := b; s_autoclose := s_autoclose s; s_timeout := s_timeout s |}.
Definition no_auto_close (s : session) : session :=
  {| s_opened := s_opened s; s_hsn := s_hsn s; s_tsn := s_tsn s; s_nohash := s_nohash s; s_autoclose := false; s_timeout := s_timeout s |}.
Definition set_timeout (s : session) (ms : N) : session :=
  {| s_opened := s_opened s; s_hsn := s_hsn s; s_tsn := s_tsn s; s_nohash := s_nohash s; s_autoclose := s_autoclose s; s_timeout := ms |}.
Definition set_hsn_num (s : session) (v : N) : session :=
  {| s_opened := s_opened s; s_hsn := v; s_tsn := s_tsn s; s_nohash := s_nohash s; s_autoclose := s_autoclose s; s_timeout := s_timeout s |}.
Definition set_tsn_num (s : session) (v : N) : session :=
  {| s_opened := s_opened s; s_hsn := s_hsn s; s_tsn := v; s_nohash := s_nohash s; s_autoclose := s_autoclose s; s_timeout := s_timeout s |}.
Definition set_opened (s : session) (b : bool) : session :=
  {| s_opened := b; s_hsn := s_hsn s; s_tsn := s_tsn s; s_nohash := s_nohash s; s_autoclose := s_autoclose s; s_timeout := s_timeout s |}.

Definition is_zero32 (off : nat) (r : response) : bool := be32_at off (r_buf r) =? 0.

(** tcg/session.go:200-237: the checks after a successful Exec.  A nil token is None; a negative index panics. *)
Definition check_response (resp : response) : res pair_out :=
  if is_zero32 16 resp || is_zero32 40 resp || is_zero32 52 resp then Ok (Some resp, Some EIllegalResponse)
  else match get_token resp 0 with
  | Ok None => Ok (Some resp, Some EIllegalResponse)
  | Ok (Some t0) =>
    match tok_type t0 with
    | Ok ty0 =>
      if (Z.of_N ty0 =? ENDOFSESSION)%Z then Ok (Some resp, None)
      else
        let n := get_token_count resp in
        match get_token resp (n - 1), get_token resp (n - 5) with
        | Ok (Some tokenA), Ok (Some tokenB) =>
          match tok_type tokenA, tok_type tokenB with
          | Ok ta, Ok tb =>
            if negb (Z.of_N ta =? ENDLIST)%Z || negb (Z.of_N tb =? STARTLIST)%Z
            then Ok (Some resp, Some EIllegalResponse)
            else match get_token resp (n - 4) with
                 | Ok (Some t) =>
                   match get_uint8 t with
                   | Ok methodStatus =>
                     if negb (methodStatus =? 0) then Ok (Some resp, Some (ETcg methodStatus))
                     else Ok (Some resp, None)
                   | Err e => Ok (Some resp, Some e)
                   | Panic => Panic | Fuel => Fuel
                   end
                 | _ => Panic
                 end
          | _, _ => Panic
          end
        | Ok _, Ok _ => Ok (Some resp, Some EIllegalResponse)
        | _, _ => Panic
        end
    | _ => Panic
    end
  | _ => Panic
  end.

(** tcg/session.go:191-193 *)
Definition stamp (s : session) (comId : N) (c : cmd) : cmd :=
  set_com_id (set_tsn (set_hsn c (s_hsn s mod 2 ^ 32)) (s_tsn s mod 2 ^ 32)) comId.

(** tcg/session.go:190-238 (the session is not modified) *)
Definition send_command (E : env) (d : device) (s : session) (c : cmd) (h : hist) : hist * res pair_out :=
  match get_base_com_id d with
  | Ok comId =>
    match exec E d (stamp s comId c) 0x01 h with
    | (h', Ok (_, Some e)) => (h', Ok (None, Some e))
    | (h', Ok (Some resp, None)) => (h', check_response resp)
    | (h', Ok (None, None)) => (h', Panic)
    | (h', Panic) => (h', Panic)
    | (h', Fuel) => (h', Fuel)
    | (h', Err e) => (h', Err e)
    end
  | _ => (h, Panic)
  end.

(** tcg/session.go:31-41.  The command of line 35 has a nil buffer: AddToken dereferences it and panics. *)
Definition session_close (s : session) (h : hist) : session * hist * res unit :=
  if s_autoclose s && s_opened s then (set_opened s false, h, Panic)
  else (s, h, Ok tt).

(** tcg/session.go:59-68 *)
Inductive authority : Type := AUid (u : bytes) | ABuf (b : bytes) | ANil.
Definition authority_bytes (a : authority) : bytes :=
  match a with AUid u => u8 BYTESTRING8 :: u | ABuf b => b | ANil => [] end.

Definition is_enterprise (d : device) : bool := get_device_type d =? 4.
Definition build (i : invoking) (m : bytes) (ops : list cop) : cmd :=
  fst (complete (crun (fst (cmd_init new_command i (MMethod m))) ops) None).
Definition opt_tok (z : Z) : cop := CTok (TOpalToken z).
Definition tiny_tok (z : Z) : cop := CTok (TTinyAtom z).

(** tcg/session.go:75-108 *)
Definition start_command (E : env) (d : device) (s : session) (sp challenge buf : bytes) : cmd :=
  let hashed := tcg_hash_password (e_pbkdf2 E) (get_serial d) false challenge in
  build (IUid SMUID_UID) M_STARTSESSION
    ([opt_tok STARTLIST; CNum 105; CTok (TOpalUID sp); tiny_tok UINT_01]
     ++ (if negb (List.length challenge =? 0)%nat && negb (is_enterprise d) then
           [opt_tok STARTNAME; tiny_tok UINT_00;
            (if negb (s_nohash s) then CStr hashed None else CStr challenge None); opt_tok ENDNAME;
            opt_tok STARTNAME; tiny_tok UINT_03; CRaw buf; opt_tok ENDNAME]
         else [])
     ++ (if is_enterprise d then
           [opt_tok STARTNAME; CStr (ascii_bytes "SessionTimeout") None; CNum (s_timeout s); opt_tok ENDNAME]
         else [])
     ++ [opt_tok ENDLIST]).

(** binary.BigEndian.Uint32 over the little-endian bytes of a local uint32 (session.go:125,131) *)
Definition byte_swap32 (v : N) : N := be_val (le_bytes 4 v).

(** tcg/session.go:145-166 *)
Definition authenticate_command (E : env) (d : device) (s : session) (auth challenge : bytes) : cmd :=
  let ent := is_enterprise d in
  let hashed := tcg_hash_password (e_pbkdf2 E) (get_serial d) false challenge in
  build (IUid THISSP_UID) (ternary ent M_EAUTHENTICATE M_AUTHENTICATE)
    ([opt_tok STARTLIST; CRaw auth]
     ++ (if negb (List.length challenge =? 0)%nat then
           [opt_tok STARTNAME;
            (if ent then CStr (ascii_bytes "Challenge") (Some 9%Z) else tiny_tok UINT_00);
            (if negb (s_nohash s) then CStr hashed (Some (Z.of_nat (List.length hashed)))
             else CStr challenge (Some (Z.of_nat (List.length challenge))));
            opt_tok ENDNAME]
         else [])
     ++ [opt_tok ENDLIST]).

(** tcg/session.go:140-188 (the session is not modified) *)
Definition authenticate (E : env) (d : device) (s : session) (auth challenge : bytes) (h : hist) : hist * res unit :=
  match send_command E d s (authenticate_command E d s auth challenge) h with
  | (h', Ok (_, Some e)) => (h', Err e)
  | (h', Ok (Some resp, None)) =>
    (h', match get_token resp 1 with
         | Ok None => Err EIllegalResponse
         | Ok (Some t) =>
           match get_uint8 t with
           | Ok v => if negb (v =? 0) then Err (EFmt "authentication failed: %d" v) else Ok tt
           | Err e => Err e | Panic => Panic | Fuel => Fuel
           end
         | _ => Panic
         end)
  | (h', Ok (None, None)) => (h', Panic)
  | (h', Err e) => (h', Err e)
  | (h', Panic) => (h', Panic)
  | (h', Fuel) => (h', Fuel)
  end.

(** tcg/session.go:60-138 *)
Definition session_start (E : env) (d : device) (s : session) (sp challenge : bytes) (a : authority) (h : hist)
  : session * hist * res unit :=
  let buf := authority_bytes a in
  match send_command E d s (start_command E d s sp challenge buf) h with
  | (h', Ok (_, Some e)) => (s, h', Err e)
  | (h', Ok (Some resp, None)) =>
    match get_token resp 4, get_token resp 5 with
    | Ok (Some hsnToken), Ok (Some tsnToken) =>
      match get_uint32 hsnToken with
      | Ok temp =>
        let s1 := set_hsn_num s (byte_swap32 temp) in
        match get_uint32 tsnToken with
        | Ok temp2 =>
          let s2 := set_tsn_num s1 (byte_swap32 temp2) in
          if negb (List.length challenge =? 0)%nat && is_enterprise d
          then let (h2, r) := authenticate E d s2 buf challenge h' in (s2, h2, r)
          else (s2, h', Ok tt)
        | Err e => (s1, h', Err e) | Panic => (s1, h', Panic) | Fuel => (s1, h', Fuel)
        end
      | Err e => (s, h', Err e) | Panic => (s, h', Panic) | Fuel => (s, h', Fuel)
      end
    | Ok _, Ok _ => (s, h', Err EIllegalResponse)
    | _, _ => (s, h', Panic)
    end
  | (h', Ok (None, None)) => (s, h', Panic)
  | (h', Err e) => (s, h', Err e)
  | (h', Panic) => (s, h', Panic)
  | (h', Fuel) => (s, h', Fuel)
  end.

(** error part of a SendCommand result *)
Definition only_err (r : res pair_out) : res unit :=
  match r with
  | Ok (_, Some e) => Err e
  | Ok (_, None) => Ok tt
  | Err e => Err e | Panic => Panic | Fuel => Fuel
  end.

(** tcg/device_opal.go:118-122 *)
Definition revert_command : cmd := build (IUid ADMINSP_UID) M_REVERT [opt_tok STARTLIST; opt_tok ENDLIST].

(** tcg/device_opal.go:105-130 *)
Definition opal_revert_tper (E : env) (d : device) (password : bytes) (isPsid : bool) (h : hist) : hist * res unit :=
  let s0 := if isPsid then set_no_hash_password new_session true else new_session in
  let uid := if isPsid then PSID_UID else SID_UID in
  match session_start E d s0 ADMINSP_UID password (AUid uid) h with
  | (s1, h1, Ok _) => let (h2, r) := send_command E d s1 revert_command h1 in (h2, only_err r)
  | (_, h1, Err e) => (h1, Err e)
  | (_, h1, Panic) => (h1, Panic)
  | (_, h1, Fuel) => (h1, Fuel)
  end.

(** tcg/device_opal.go:132-155; startCol, endCol are uint16 *)
Definition get_table_command (table : bytes) (startCol endCol : N) : cmd :=
  build (IBuf table) M_GET
    [opt_tok STARTLIST; opt_tok STARTLIST;
     opt_tok STARTNAME; opt_tok STARTCOLUMN; CNum startCol; opt_tok ENDNAME;
     opt_tok STARTNAME; opt_tok ENDCOLUMN; CNum endCol; opt_tok ENDNAME;
     opt_tok ENDLIST; opt_tok ENDLIST].
Definition opal_get_table (E : env) (d : device) (s : session) (table : bytes) (startCol endCol : N) (h : hist)
  : hist * res pair_out := send_command E d s (get_table_command table startCol endCol) h.

(** A (string, error) result *)
Definition finish_password (x : hist * res pair_out) : hist * res bytes :=
  match x with
  | (h, Ok (_, Some e)) => (h, Err e)
  | (h, Ok (Some resp, None)) =>
    (h, match get_token resp 4 with
        | Ok None => Err EIllegalResponse
        | Ok (Some t) => get_string t
        | _ => Panic
        end)
  | (h, Ok (None, None)) => (h, Panic)
  | (h, Err e) => (h, Err e)
  | (h, Panic) => (h, Panic)
  | (h, Fuel) => (h, Fuel)
  end.

(** tcg/device_opal.go:157-178 *)
Definition opal_get_default_password (E : env) (d : device) (h : hist) : hist * res bytes :=
  match session_start E d new_session ADMINSP_UID [] (AUid UID_HEXFF) h with
  | (s1, h1, Ok _) =>
    finish_password (opal_get_table E d s1 (u8 BYTESTRING8 :: C_PIN_MSID) CREDENTIAL_PIN CREDENTIAL_PIN h1)
  | (_, h1, Err e) => (h1, Err e)
  | (_, h1, Panic) => (h1, Panic)
  | (_, h1, Fuel) => (h1, Fuel)
  end.

(** tcg/device_enterprise.go:73-96 *)
Definition ent_get_table_command (table startCol endCol : bytes) : cmd :=
  build (IBuf table) M_GET
    [opt_tok STARTLIST; opt_tok STARTLIST;
     opt_tok STARTNAME; CStr (ascii_bytes "startColumn") None; CStr startCol None; opt_tok ENDNAME;
     opt_tok STARTNAME; CStr (ascii_bytes "endColumn") None; CStr endCol None; opt_tok ENDNAME;
     opt_tok ENDLIST; opt_tok ENDLIST].
Definition ent_get_table (E : env) (d : device) (s : session) (table startCol endCol : bytes) (h : hist)
  : hist * res pair_out := send_command E d s (ent_get_table_command table startCol endCol) h.

(** tcg/device_enterprise.go:40-71 *)
Definition ent_revert_tper (E : env) (d : device) (password : bytes) (isPsid isAdminSp : bool) (h : hist) : hist * res unit :=
  let s0 := if isPsid then set_no_hash_password new_session true else new_session in
  let uid := if isPsid then PSID_UID else SID_UID in
  match session_start E d s0 ADMINSP_UID password (AUid uid) h with
  | (s1, h1, Ok _) =>
    let c := if isAdminSp then build (IUid ADMINSP_UID) M_REVERT [opt_tok STARTLIST; opt_tok ENDLIST]
             else build (IUid THISSP_UID) M_REVERTSP [opt_tok STARTLIST; opt_tok ENDLIST] in
    let (h2, r) := send_command E d (no_auto_close s1) c h1 in (h2, only_err r)
  | (_, h1, Err e) => (h1, Err e)
  | (_, h1, Panic) => (h1, Panic)
  | (_, h1, Fuel) => (h1, Fuel)
  end.

(** tcg/device_enterprise.go:98-118 *)
Definition ent_get_default_password (E : env) (d : device) (h : hist) : hist * res bytes :=
  match session_start E d new_session ADMINSP_UID [] (AUid UID_HEXFF) h with
  | (s1, h1, Ok _) =>
    finish_password (ent_get_table E d s1 (u8 BYTESTRING8 :: C_PIN_MSID) (ascii_bytes "PIN") (ascii_bytes "PIN") h1)
  | (_, h1, Err e) => (h1, Err e)
  | (_, h1, Panic) => (h1, Panic)
  | (_, h1, Fuel) => (h1, Fuel)
  end.

(** Dispatch through the TcgDevice interface: tcg/device.go:217-227, device_opal.go:45-55,93-103, device_enterprise.go:40,98 *)
Definition revert_tper (E : env) (d : device) (password : bytes) (isPsid isAdminSp : bool) (h : hist) : hist * res unit :=
  match d_kind d with
  | KGeneric => (h, Err (EMsg "not supported"))
  | KOpal1 | KOpal2 => opal_revert_tper E d password isPsid h
  | KEnterprise => ent_revert_tper E d password isPsid isAdminSp h
  end.
Definition get_default_password (E : env) (d : device) (h : hist) : hist * res bytes :=
  match d_kind d with
  | KGeneric => (h, Err (EMsg "not supported"))
  | KOpal1 | KOpal2 => opal_get_default_password E d h
  | KEnterprise => ent_get_default_password E d h
  end.
Definition dev_opal_get_table (E : env) (d : device) (s : session) (table : bytes) (startCol endCol : N) (h : hist)
  : hist * res pair_out :=
  match d_kind d with
  | KOpal1 | KOpal2 => opal_get_table E d s table startCol endCol h
  | _ => (h, Ok (None, Some (EMsg "not supported")))
  end.

(** Session histories. *)
Inductive sop : Type :=
| SStart (sp challenge : bytes) (a : authority) | SAuth (auth challenge : bytes) | SSend (c : cmd)
| SNoHash (b : bool) | SNoAutoClose | SSetTimeout (ms : N) | SClose.
Definition sstep (E : env) (d : device) (st : session * hist) (o : sop) : session * hist * res unit :=
  let (s, h) := st in
  match o with
  | SStart sp ch a => session_start E d s sp ch a h
  | SAuth au ch => let (h', r) := authenticate E d s au ch h in (s, h', r)
  | SSend c => let (h', r) := send_command E d s c h in (s, h', only_err r)
  | SNoHash b => (set_no_hash_password s b, h, Ok tt)
  | SNoAutoClose => (no_auto_close s, h, Ok tt)
  | SSetTimeout ms => (set_timeout s ms, h, Ok tt)
  | SClose => session_close s h
  end.
(** A panic ends the history (the program dies unless the caller recovers, so later calls are still allowed here). *)
Definition srun (E : env) (d : device) (st : session * hist) (ops : list sop) : session * hist :=
  fold_left (fun st o => fst (sstep E d st o)) ops st.
