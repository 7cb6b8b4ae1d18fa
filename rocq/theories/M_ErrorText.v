(** Model of the texts of the library's errors: common/errors.go, tcg/errors.go, the messages built with package fmt in the drivers, and
    the part of package fmt those messages use. *)
From Verif Require Import Base M_Buffer M_Strings M_Ata M_TcgDevice M_DriveHandle M_Cdb M_SgDriver M_NvmeLinux M_LinuxInfo M_LinuxFactory M_WinPass M_WinNvme.

(** ---- fmt.Sprintf (Go's standard library, fmt/format.go fmtInteger and fmt/print.go doPrintf): environment.  Only the flags # and 0,
    a width and the verbs d, x, v, s and % are modelled; the library uses no others in error messages. ---- *)
Inductive farg := AInt (n : N) | AText (t : bytes) | ABytes (b : bytes).
Definition digit (n : N) : N := if n <? 10 then 48 + n else 87 + n.
(** fmt/format.go fmtInteger: the digits, least significant last; [fuel] digits suffice for a 64-bit number in either base *)
Fixpoint digits (fuel : nat) (base n : N) : bytes :=
  match fuel with O => [] | S f => if n <? base then [digit n] else digits f base (n / base) ++ [digit (n mod base)] end.
(** fmt/format.go fmtInteger: with the flag 0 the width is a number of digits, not counting the prefix 0x of the flag # *)
Definition fmt_int (sharp zero : bool) (wid : nat) (base n : N) : bytes :=
  let ds := digits 64 base n in
  let body := repeat 48 ((if zero then wid else 0) - List.length ds) ++ ds in
  let text := if sharp && (base =? 16) then [48; 120] ++ body else body in
  repeat 32 (wid - List.length text) ++ text.
(** fmt/print.go fmtBytes for the verb v: decimal numbers in brackets *)
Fixpoint spaced (l : list bytes) : bytes :=
  match l with [] => [] | [x] => x | x :: r => x ++ [32] ++ spaced r end.
Definition fmt_bytes (b : bytes) : bytes := [91] ++ spaced (map (digits 64 10) b) ++ [93].
Definition fmt_arg (sharp zero : bool) (wid : nat) (verb : N) (a : farg) : bytes :=
  match a with
  | AInt n => if verb =? 120 then fmt_int sharp zero wid 16 n                        (* x *)
              else if (verb =? 100) || (verb =? 118) then fmt_int sharp zero wid 10 n (* d, v *)
              else [37; 33; verb]
  | AText t => if (verb =? 115) || (verb =? 118) then t else [37; 33; verb]           (* s, v *)
  | ABytes b => if (verb =? 100) || (verb =? 118) then fmt_bytes b else [37; 33; verb]
  end.
(** [st]: inside a directive, with the flags and the width read so far *)
Fixpoint sprintf_from (st : option (bool * bool * option nat)) (f : bytes) (args : list farg) : bytes :=
  match f with
  | [] => []
  | c :: f' =>
    match st with
    | None => if c =? 37 then sprintf_from (Some (false, false, None)) f' args else c :: sprintf_from None f' args
    | Some (sharp, zero, w) =>
      if (c =? 35) && match w with None => true | _ => false end then sprintf_from (Some (true, zero, w)) f' args
      else if (c =? 48) && match w with None => true | _ => false end then sprintf_from (Some (sharp, true, w)) f' args
      else if (48 <=? c) && (c <=? 57)
      then sprintf_from (Some (sharp, zero, Some (match w with Some x => x | None => O end * 10 + N.to_nat (c - 48))%nat)) f' args
      else if c =? 37 then 37 :: sprintf_from None f' args
      else match args with
           | [] => [37; 33; c] ++ str "(MISSING)" ++ sprintf_from None f' []
           | a :: args' => fmt_arg sharp zero (match w with Some x => x | None => O end) c a ++ sprintf_from None f' args'
           end
    end
  end.
Definition sprintf (f : string) (args : list farg) : bytes := sprintf_from None (str f) args.

(** ---- the messages ---- *)
(** Where an error with numbers comes from. *)
Inductive site := SgTask | SgSecurity | WinScsiTask | WinScsiSecurity | WinAtaTask | WinNvmeLog (size : N) | Elsewhere.
(** plat_linux/sg_driver.go:251-253 (task file), 405-407 (security); plat_win/scsi_driver.go:210-212, 356-358; plat_win/ata_driver.go:175.
    [st] is DriverStatus, [si] the 18 bytes of SenseData (scsi/types.go:11-36). *)
Definition dparm_message (c : site) (msg : string) (st : N) (si : bytes) : bytes :=
  let numbers := [AInt st; AInt (get_sense_key si); AInt (nth 12 si 0); AInt (nth 13 si 0)] in
  match c with
  | SgTask => sprintf "SCSI status: %02x, Sense key: %#02x, ASC: %#02x, ASCQ: %#02x" numbers
  | SgSecurity | WinScsiTask | WinScsiSecurity => sprintf "SCSI Status: %02x, Sense Key: %#02x, ASC: %#02x, ASCQ: %#02x" numbers
  | WinAtaTask => sprintf "ATA Status: %02x" [AInt st]
  | _ => str msg
  end.
(** err.Error().  [O] gives the text of an operating system's error number.
    common/errors.go:14-16, tcg/errors.go:11-13, tcg/response.go:13, tcg/command.go:12, common/drive_handle.go:24, tcg/session.go:184,
    plat_linux/nvme_driver.go:46, plat_win/nvme_win_driver.go:117, plat_win/windows_nvme_driver.go:71, 145; io.EOF and
    io.ErrUnexpectedEOF are Go's. *)
Definition error_text (O : N -> bytes) (c : site) (e : err) : bytes :=
  match e with
  | EMsg s => str s
  | EFmt s v => sprintf s (AInt v :: match c with WinNvmeLog size => [AInt size] | _ => [] end)
  | EEOF => str "EOF"
  | EUnexpectedEOF => str "unexpected EOF"
  | EInvalidParamType => str "invalid param type"
  | EIllegalResponse => str "illegal response"
  | ETcg n => sprintf "tcg error: %d" [AInt n]
  | EDparm msg st si => dparm_message c msg st si
  | ENotSupportThisDriver => str "not supported in this driver"
  | EExt k s => match s with EmptyString => O k | _ => str s end
  end.

(** The driver of a handle and the call that was made on it last determine the place. *)
Inductive kind := OnSg | OnNvme | OnWin (k : wkind).
Definition site_of (k : kind) (c : dcall) : site :=
  match k, c with
  | OnSg, CTask _ _ _ _ _ => SgTask
  | OnSg, CSec _ _ _ _ _ _ => SgSecurity
  | OnWin KScsi, CTask _ _ _ _ _ => WinScsiTask
  | OnWin (KScsi | KWinNvme), CSec _ _ _ _ _ _ => WinScsiSecurity
  | OnWin KAta, CTask _ _ _ _ _ => WinAtaTask
  | _, _ => Elsewhere
  end.
(** The text of the error a call on a drive handle returns, [h] being the driver calls made up to its return. *)
Definition text_after (O : N -> bytes) (k : kind) (h : dhist) (e : err) : bytes :=
  error_text O (match last_call h with Some (_, c) => site_of k c | None => Elsewhere end) e.

(** ---- common/errors.go:18-37 ---- *)
Inductive gerr := Leaf (text : bytes) | NestedErr (message : bytes) (cause : gerr).
(** common/errors.go:35-37 and, for a leaf, whatever its Error method returns *)
Definition gtext (e : gerr) : bytes := match e with Leaf t => t | NestedErr m _ => m end.
(** common/errors.go:24-29 *)
Definition new_nested (msg : bytes) (cause : gerr) : gerr := NestedErr (msg ++ str ": " ++ gtext cause) cause.
(** common/errors.go:31-33 *)
Definition cause (e : gerr) : option gerr := match e with Leaf _ => None | NestedErr _ c => Some c end.
(** plat_linux/utils.go:39-42, 56-58: what ReadBasicInfo reports *)
Definition basic_info_error (O : N -> bytes) (path : bytes) (a : disk_answers) : option gerr :=
  match da_open a with
  | Some e => Some (new_nested (path ++ str " diskfs.open failed") (Leaf (error_text O Elsewhere e)))
  | None => match da_geo a with
            | Some e => Some (new_nested (path ++ str " HDIO_GETGEO failed") (Leaf (error_text O Elsewhere e)))
            | None => None
            end
  end.
(** plat_linux/drive_factory.go:93-96: what EnumDrives reports; [e] is the error of os.ReadDir *)
Definition enum_drives_error (O : N -> bytes) (e : err) : gerr :=
  new_nested (str "open /sys/block failed") (Leaf (error_text O Elsewhere e)).
(** plat_linux/drive_factory.go:130-150: what getIdInfo reports.  [dir]: os.ReadDir's error or the names;
    [link]: EvalSymlinks. *)
Fixpoint id_info_links (O : N -> bytes) (link : bytes -> err + bytes) (names : list bytes) : option gerr :=
  match names with
  | [] => None
  | n :: r => if skip_pat n then id_info_links O link r
              else match link n with
                   | inl e => Some (new_nested (str "EvalSymlinks " ++ str "/dev/disk/by-id" ++ str "/" ++ n ++ str " failed") (Leaf (error_text O Elsewhere e)))
                   | inr _ => id_info_links O link r
                   end
  end.
Definition id_info_error (O : N -> bytes) (dir : err + list bytes) (link : bytes -> err + bytes) : option gerr :=
  match dir with
  | inl e => Some (new_nested (str "readdir /dev/disk/by-id failed") (Leaf (error_text O Elsewhere e)))
  | inr names => id_info_links O link names
  end.

(** internal/direct_mbr/table.go:40, 46, 82, 85: the texts of the MBR reader's errors *)
Definition mbr_error_text (O : N -> bytes) (answer : nat -> bytes * (N * option err)) : option bytes :=
  let '(b, (read, e)) := answer 512%nat in
  match e with
  | Some x => Some (sprintf "error reading MBR from file: %v" [AText (error_text O Elsewhere x)])
  | None =>
    let buf := firstn 512 (b ++ skipn (List.length b) (zeros 512)) in
    if negb (read =? 512) then Some (sprintf "read only %d bytes of MBR from file instead of expected %d" [AInt read; AInt (blen (zeros 512))])
    else if negb (blen buf =? 512) then Some (sprintf "data for partition was %d bytes instead of expected %d" [AInt (blen buf); AInt 512])
    else if negb (beq (skipn 510 buf) [0x55; 0xaa]) then Some (sprintf "invalid MBR Signature %v" [ABytes (skipn 510 buf)])
    else None
  end.
