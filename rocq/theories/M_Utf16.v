(** Model of the two string conversions the Windows code calls: windows.UTF16ToString (plat_win/drive_factory.go:166, plat_win/volume.go:120,129,140)
    and windows.UTF16PtrFromString (plat_win/utils.go:31).  golang.org/x/sys v0.25.0 (go.mod:11) forwards both to package syscall.  go.mod:3
    asks for go 1.18 or later, and the two functions changed in go 1.21: [modern] says that the toolchain is 1.21 or later, where unpaired
    surrogates are kept ("WTF-8"); before, each became U+FFFD.  These are dependencies, modelled from their documentation and source. *)
From Verif Require Export M_Utf8.
From Verif Require Import Base M_DriveHandle M_Strings M_WinPass M_WinNvme M_WinInfo M_WinFactory M_WinEnum.

Definition is_surrogate (u : N) : bool := (0xD800 <=? u) && (u <? 0xE000).
Definition is_high (u : N) : bool := (0xD800 <=? u) && (u <? 0xDC00).
Definition is_low (u : N) : bool := (0xDC00 <=? u) && (u <? 0xE000).

(** ---- UTF16ToString ---- *)
(** utf16.DecodeRune for a pair *)
Definition pair_rune (a b : N) : N := N.lor (N.shiftl (a - 0xD800) 10) (b - 0xDC00) + 0x10000.
(** unicode/utf16.Decode (before 1.21), syscall.decodeWTF16 (since): the runes of a UTF-16 text *)
Fixpoint units_runes (modern : bool) (us : list N) : list N :=
  match us with
  | [] => []
  | u :: t =>
    if negb (is_surrogate u) then u :: units_runes modern t
    else match t with
         | v :: t' => if is_high u && is_low v then pair_rune u v :: units_runes modern t'
                      else (if modern then u else RUNE_ERROR) :: units_runes modern t
         | [] => [if modern then u else RUNE_ERROR]
         end
  end.
(** utf8.AppendRune, by the value alone: decodeWTF16 writes a surrogate with the three-byte pattern too *)
Definition rune_bytes (r : N) : bytes :=
  if r <? 0x80 then [r]
  else if r <? 0x800 then [N.lor 0xC0 (N.shiftr r 6); N.lor 0x80 (N.land r 0x3F)]
  else if r <? 0x10000 then [N.lor 0xE0 (N.shiftr r 12); N.lor 0x80 (N.land (N.shiftr r 6) 0x3F); N.lor 0x80 (N.land r 0x3F)]
  else [N.lor 0xF0 (N.shiftr r 18); N.lor 0x80 (N.land (N.shiftr r 12) 0x3F); N.lor 0x80 (N.land (N.shiftr r 6) 0x3F); N.lor 0x80 (N.land r 0x3F)].
(** syscall.UTF16ToString: up to the first NUL *)
Definition utf16_to_string (modern : bool) (us : list N) : bytes :=
  flat_map rune_bytes (units_runes modern (match until_nul us with Some t => t | None => us end)).

(** ---- UTF16PtrFromString ---- *)
(** utf16.AppendRune of a rune DecodeRune can return *)
Definition rune_units (r : N) : list N :=
  if r <? 0x10000 then [r] else [0xD800 + N.land (N.shiftr (r - 0x10000) 10) 0x3FF; 0xDC00 + N.land (r - 0x10000) 0x3FF].
(** the three-byte pattern of a surrogate (syscall.encodeWTF16) *)
Definition wtf8_surrogate (s : bytes) : bool :=
  (3 <=? List.length s)%nat && (byte_at 0 s =? 0xED) && cont 0xA0 0xBF (byte_at 1 s) && cont 0x80 0xBF (byte_at 2 s).
Definition surrogate_unit (s : bytes) : N :=
  N.shiftl (N.land (byte_at 0 s) 0x0F) 12 + N.shiftl (N.land (byte_at 1 s) 0x3F) 6 + N.land (byte_at 2 s) 0x3F.
(** []rune(s) and utf16.Encode (before 1.21), syscall.encodeWTF16 (since); [fuel]: the length of [s] suffices.  In Go the bytes after the end
    of [s] are not looked at; here they read as 0, which is no continuation byte. *)
Fixpoint string_units (modern : bool) (fuel : nat) (s : bytes) : list N :=
  match fuel with
  | O => []
  | Datatypes.S f =>
    match s with
    | [] => []
    | _ =>
      let '(r, n) := decode_rune s in
      if modern && (r =? RUNE_ERROR) && wtf8_surrogate s then surrogate_unit s :: string_units modern f (skipn 3 s)
      else rune_units r ++ string_units modern f (skipn n s)
    end
  end.
(** syscall.UTF16PtrFromString: the units before the terminator; None: EINVAL, the string contains a NUL *)
Definition string_to_utf16 (modern : bool) (s : bytes) : option (list N) :=
  if existsb (N.eqb 0) s then None else Some (string_units modern (List.length s) s).

(** plat_win/utils.go:30-43: what CreateFile gets when OpenDevice is called with [path].  None: OpenDevice returns EINVAL without calling it. *)
Definition create_file_name (modern : bool) (path : bytes) : option (list N) := string_to_utf16 modern path.
(** The system with the conversion filled in. *)
Definition with_text (modern : bool) (X : xsys) : xsys :=
  {| x_io := x_io X; x_open := x_open X; x_data := x_data X; x_bounce := x_bounce X; x_class := x_class X; x_devinfo := x_devinfo X;
     x_iface := x_iface X; x_detail := x_detail X; x_mode := x_mode X; x_first := x_first X; x_next := x_next X; x_names := x_names X;
     x_info := x_info X; x_type := x_type X; x_vopen := x_vopen X; x_text := utf16_to_string modern |}.
