(** Model of plat_win/utils.go:46-227 and the structures of plat_win/storage_types.go and storage_win_types.go they read, on a 64-bit
    little-endian machine. *)
From Verif Require Import Base M_TcgDevice M_SgDriver M_Strings M_WinPass M_WinNvme.

(** windows.DeviceIoControl with an output buffer of its own, [n] zero bytes: the answer and the buffer afterwards. *)
Definition win_query (S : wsys) (h : whist) (hd code : N) (inb : bytes) (n : N) : whist * (wans * bytes) :=
  let h1 := h ++ [WIo {| wc_handle := hd; wc_code := code; wc_in := inb; wc_outlen := n; wc_target := TNone; wc_mem := [] |}] in
  (h1, (s_io S h1, fill (zeros (N.to_nat n)) (wa_out (s_io S h1)))).

(** utils.go:15-18 *)
Definition IOCTL_STORAGE_GET_DEVICE_NUMBER : N := 0x2d1080.
Definition IOCTL_DISK_GET_DRIVE_GEOMETRY_EX : N := 0x700a0.
Definition IOCTL_DISK_GET_DRIVE_LAYOUT_EX : N := 0x70050.
Definition ERROR_INSUFFICIENT_BUFFER : N := 122.

(** utils.go:212-227.  The whole buffer and the number of bytes returned (the slice is buffer[:bytesReturned]).  errno is the first
    call's error: the second one's is not converted again. *)
Definition read_ioctl (S : wsys) (h : whist) (hd code : N) (inb : bytes) : whist * res (bytes * N) :=
  let '(h1, (a1, b1)) := win_query S h hd code inb 4096 in
  let finish (h2 : whist) (a : wans) (b : bytes) : whist * res (bytes * N) :=
    if wa_err a =? 0 then (h2, if blen b <? wa_ret a then Panic else Ok (b, wa_ret a))
    else (h2, Err (errno (wa_err a1))) in
  if wa_err a1 =? ERROR_INSUFFICIENT_BUFFER then
    if wa_ret a1 =? 0 then (h1, Panic)                                     (* &buffer[0] *)
    else let '(h2, (a2, b2)) := win_query S h1 hd code inb (wa_ret a1) in finish h2 a2 b2
  else finish h1 a1 b1.

(** windows.GUID.String (x/sys/windows, StringFromGUID2): registry format, upper case *)
Definition hex_digit (n : N) : N := if n <? 10 then 48 + n else 55 + n.
Definition hex_byte (b : N) : bytes := [hex_digit (b / 16); hex_digit (b mod 16)].
Definition hex_at (g : bytes) (idx : list nat) : bytes := flat_map (fun i => hex_byte (nth i g 0)) idx.
Definition guid_string (g : bytes) : bytes :=
  123 :: hex_at g [3;2;1;0]%nat ++ [45] ++ hex_at g [5;4]%nat ++ [45] ++ hex_at g [7;6]%nat ++ [45]
  ++ hex_at g [8;9]%nat ++ [45] ++ hex_at g [10;11;12;13;14;15]%nat ++ [125].
(** strings.Trim(s, set) for a set of ASCII characters *)
Fixpoint drop_chars (set s : bytes) : bytes :=
  match s with [] => [] | b :: t => if existsb (N.eqb b) set then drop_chars set t else s end.
Definition trim_chars (set s : bytes) : bytes := rev (drop_chars set (rev (drop_chars set s))).

(** volume.go:14-19 (PartitionImpl): the extent, the partition entry (144 bytes) and the two optional infos *)
Record wpart := { wp_disk : N; wp_start : N; wp_size : N; wp_entry : bytes; wp_gpt : option (bytes * bytes); wp_mbr : option (N * bool) }.
(** PARTITION_INFORMATION_EX, storage_types.go:52-63 *)
Definition entry_size : nat := 144.
Definition entry_style (e : bytes) : N := le_val (slice 0 4 e).
(** utils.go:105-117, volume.go:203-208: PARTITION_INFORMATION_GPT at 32 *)
Definition gpt_info (e : bytes) : bytes * bytes := (map upper (guid_string (slice 32 16 e)), map upper (guid_string (slice 48 16 e))).
(** PARTITION_INFORMATION_MBR at 32; a Go bool holding another byte than 0 or 1 counts as true *)
Definition mbr_info (e : bytes) : N * bool := (nth 32 e 0, negb (nth 33 e 0 =? 0)).
(** utils.go:98-119, 126-147: one entry; GetGpt / GetMbr give nil on another style and the field read panics *)
Definition layout_entry (gpt : bool) (disk : N) (e : bytes) : res wpart :=
  if entry_style e =? (if gpt then 1 else 0) then
    Ok {| wp_disk := disk; wp_start := le_val (slice 8 8 e); wp_size := le_val (slice 16 8 e); wp_entry := e;
          wp_gpt := if gpt then Some (gpt_info e) else None; wp_mbr := if gpt then None else Some (mbr_info e) |}
  else Panic.
Fixpoint layout_entries (gpt : bool) (disk : N) (n : nat) (data : bytes) : res (list wpart) :=
  match n with
  | O => Ok []
  | S n' =>
    if (List.length data <? entry_size)%nat then Ok []
    else match layout_entry gpt disk (firstn entry_size data) with
         | Ok p => match layout_entries gpt disk n' (skipn entry_size data) with Ok ps => Ok (p :: ps) | r => r end
         | Err e => Err e | Panic => Panic | Fuel => Fuel
         end
  end.

(** utils.go:21-28; the structures StorageDeviceNumber and DiskGeometryEx are reduced to the fields used, DeviceNumber and DiskSize.
    wb_style: common.PartitionStyle, 0 none, 1 MBR, 2 GPT. *)
Record wbasic := { wb_devnum : option N; wb_size : option N; wb_style : N; wb_mbr : N; wb_gpt : bytes; wb_parts : list wpart }.
(** uint32(diskNumber), utils.go:52 *)
Definition disk_number (d : option N) : N := match d with Some n => n | None => 0xffffffff end.
(** utils.go:83-149: the partition table part, from the bytes returned; style, signature, disk id, partitions *)
Definition layout_info (disk : N) (data : bytes) : res (N * N * bytes * list wpart) :=
  if (List.length data <? 48)%nat then Panic                               (* data[0], data[8:], next[40:] *)
  else
    let style := le_val (slice 0 4 data) in
    let count := N.to_nat (le_val (slice 4 4 data)) in
    if style =? 1 then
      match layout_entries true disk count (skipn 48 data) with
      | Ok ps => Ok (2, 0, map lower (trim_chars (str "{}") (guid_string (slice 8 16 data))), ps)
      | Err e => Err e | Panic => Panic | Fuel => Fuel
      end
    else if style =? 0 then
      match layout_entries false disk count (skipn 48 data) with
      | Ok ps => Ok (1, le_val (slice 8 4 data), [], ps)
      | Err e => Err e | Panic => Panic | Fuel => Fuel
      end
    else Ok (0, 0, [], []).
(** utils.go:46-152 *)
Definition win_basic_info (S : wsys) (h : whist) (hd : N) : whist * res wbasic :=
  let '(h1, (a1, b1)) := win_query S h hd IOCTL_STORAGE_GET_DEVICE_NUMBER [] 12 in
  let dev := if wa_err a1 =? 0 then Some (le_val (slice 4 4 b1)) else None in
  let '(h2, (a2, b2)) := win_query S h1 hd IOCTL_DISK_GET_DRIVE_GEOMETRY_EX [] 32 in
  let size := if wa_err a2 =? 0 then Some (le_val (slice 24 8 b2)) else None in
  let '(h3, r) := read_ioctl S h2 hd IOCTL_DISK_GET_DRIVE_LAYOUT_EX [] in
  match r with
  | Ok (buf, n) =>
    match layout_info (disk_number dev) (firstn (N.to_nat n) buf) with
    | Ok (style, sig, id, ps) => (h3, Ok {| wb_devnum := dev; wb_size := size; wb_style := style; wb_mbr := sig; wb_gpt := id; wb_parts := ps |})
    | Err e => (h3, Err e) | Panic => (h3, Panic) | Fuel => (h3, Fuel)
    end
  | Err _ => (h3, Ok {| wb_devnum := dev; wb_size := size; wb_style := 0; wb_mbr := 0; wb_gpt := []; wb_parts := [] |})
  | Panic => (h3, Panic) | Fuel => (h3, Fuel)
  end.

(** utils.go:199-210; offset is an int made from a uint32 *)
Fixpoint until_nul (b : bytes) : option bytes :=
  match b with [] => None | x :: t => if x =? 0 then Some [] else match until_nul t with Some s => Some (x :: s) | None => None end end.
Definition read_ascii (buf : bytes) (offset : N) : res bytes :=
  if offset =? 0 then Ok []
  else if blen buf <? offset then Panic
  else Ok (match until_nul (skipn (N.to_nat offset) buf) with Some s => s | None => [] end).
(** utils.go:154-163 *)
Record descr := { de_type : N; de_modifier : N; de_removable : bool; de_vendor : bytes; de_product : bytes; de_revision : bytes;
                  de_serial : bytes; de_bus : N }.
Definition trim_blanks (s : bytes) : bytes := trim_chars [32] s.
(** utils.go:165-197: STORAGE_DEVICE_DESCRIPTOR (36 bytes) is laid over the buffer whatever was returned; over a buffer shorter than
    that it reads memory that is not modelled ([Fuel]). *)
Definition win_storage_query (S : wsys) (h : whist) (hd : N) : whist * res descr :=
  let '(h1, r) := read_ioctl S h hd IOCTL_STORAGE_QUERY_PROPERTY (zeros 12) in
  match r with
  | Ok (buf, n) =>
    if n =? 0 then (h1, Panic)                                            (* &buffer[0] *)
    else if (List.length buf <? 36)%nat then (h1, Fuel)
    else
      let data := firstn (N.to_nat n) buf in
      match read_ascii data (le_val (slice 12 4 buf)), read_ascii data (le_val (slice 16 4 buf)),
            read_ascii data (le_val (slice 24 4 buf)), read_ascii data (le_val (slice 20 4 buf)) with
      | Ok v, Ok p, Ok s, Ok r =>
        (h1, Ok {| de_type := nth 8 buf 0; de_modifier := nth 9 buf 0; de_removable := negb (nth 10 buf 0 =? 0);
                   de_vendor := trim_blanks v; de_product := trim_blanks p; de_revision := trim_blanks r; de_serial := trim_blanks s;
                   de_bus := nth 28 buf 0 |})
      | _, _, _, _ => (h1, Panic)
      end
  | Err e => (h1, Err e) | Panic => (h1, Panic) | Fuel => (h1, Fuel)
  end.
