(** Model of internal/direct_mbr/table.go, plat_linux/utils.go:36-139 and plat_linux/drive_factory.go:17, 127-180. *)
From Verif Require Import Base M_SgDriver M_Strings M_Utf8.

(** internal/direct_mbr/table.go:37-74; only MbrIdentifier varies in the result *)
Definition mbr_table_from_bytes (b : bytes) : res N :=
  if negb (blen b =? 512) then Err (EFmt "data for partition was %d bytes instead of expected 512" (blen b))
  else if negb (beq (skipn 510 b) [0x55; 0xaa]) then Err (EMsg "invalid MBR Signature")
  else Ok (le_val (slice 440 4 b)).
(** table.go:77-88; [answer] is what f.ReadAt(b, 0) does to a buffer of the given length: bytes stored, count and error *)
Definition mbr_read (answer : nat -> bytes * (N * option err)) : res N :=
  let '(b, (read, e)) := answer 512%nat in
  match e with
  | Some _ => Err (EMsg "error reading MBR from file")
  | None =>
    let buf := firstn 512 (b ++ skipn (List.length b) (zeros 512)) in
    if negb (read =? 512) then Err (EFmt "read only %d bytes of MBR from file instead of expected 512" read)
    else mbr_table_from_bytes buf
  end.

(** What plat_linux/utils.go:36-77 gets from go-diskfs and the kernel.  A partition table as go-diskfs presents it. *)
Record part := { pt_start : Z; pt_type : bytes; pt_guid : bytes; pt_mbr_type : N; pt_bootable : bool }.
Inductive table := TGpt (guid : bytes) (parts : list part) | TMbr (parts : list part) | TOther.
Record disk_answers := {
  da_open : option err;                     (* diskfs.Open *)
  da_table : table;                         (* dev.Table *)
  da_readat : nat -> bytes * (N * option err);   (* dev.File.ReadAt(_, 0) *)
  da_ssz : option N;                        (* BLKSSZGET: value stored, None: ioctl failed *)
  da_size : option N;                       (* BLKGETSIZE64 *)
  da_geo : option err                       (* HDIO_GETGEO *)
}.
(** common/types.go:11-15 *)
Definition StyleRaw : N := 0.
Definition StyleMbr : N := 1.
Definition StyleGpt : N := 2.
(** plat_linux/utils.go:21-29; simplification: DiskGeometry, which nothing reads, is left out *)
Record basic := { ba_style : N; ba_table : table; ba_mbr : N; ba_gpt : bytes; ba_total : Z; ba_sector : N }.
(** int64(x) *)
Definition to_int64 (x : N) : Z := let y := Z.of_N (x mod 2 ^ 64) in if (y <? 2 ^ 63)%Z then y else (y - 2 ^ 64)%Z.
(** plat_linux/utils.go:36-77; the error is a NestedError naming the path *)
Definition read_basic_info (path : bytes) (a : disk_answers) : res basic :=
  match da_open a with
  | Some e => Err (EMsg "diskfs.open failed")
  | None =>
    match da_geo a with
    | Some e => Err (EMsg "HDIO_GETGEO failed")
    | None =>
      Ok {| ba_style := match da_table a with TGpt _ _ => StyleGpt | TMbr _ => StyleMbr | TOther => StyleRaw end;
            ba_table := da_table a;
            ba_mbr := match da_table a with TMbr _ => match mbr_read (da_readat a) with Ok x => x | _ => 0 end | _ => 0 end;
            ba_gpt := match da_table a with TGpt g _ => map lower g | _ => [] end;
            ba_total := match da_size a with Some x => to_int64 x | None => 0 end;
            ba_sector := match da_ssz a with Some x => x | None => 0 end |}
    end
  end.

(** drive_factory.go:17: the pattern nvme-\w*\.|-part|scsi|wwn, matched anywhere *)
Fixpoint words_then_dot (s : bytes) : bool :=
  match s with [] => false | b :: t => (b =? 46) || is_word b && words_then_dot t end.
Fixpoint nvme_word_dot (s : bytes) : bool :=
  (has_prefix (str "nvme-") s && words_then_dot (skipn 5 s)) || match s with [] => false | _ :: t => nvme_word_dot t end.
Definition skip_pat (name : bytes) : bool :=
  nvme_word_dot name || contains (str "-part") name || contains (str "scsi") name || contains (str "wwn") name.

(** What getIdInfo gets from the system: the names in /dev/disk/by-id (None: ReadDir failed), the target of each link (None:
    EvalSymlinks failed), an order for the iteration over the map, and file contents (None: ReadFile failed). *)
Record id_answers := {
  ia_dir : option (list bytes); ia_link : bytes -> option bytes; ia_order : list (bytes * bytes) -> list (bytes * bytes);
  ia_file : bytes -> option bytes
}.
(** drive_factory.go:139-150: the map, or the error of the first link that cannot be resolved; directory entries are distinct, so the
    map is the list of pairs *)
Fixpoint id_map (link : bytes -> option bytes) (names : list bytes) : option (list (bytes * bytes)) :=
  match names with
  | [] => Some []
  | n :: rest =>
    if skip_pat n then id_map link rest
    else match link n with
         | None => None
         | Some p => match id_map link rest with None => None | Some m => Some ((n, p) :: m) end
         end
  end.
(** drive_factory.go:152-163 *)
Fixpoint id_search (path : bytes) (m : list (bytes * bytes)) : bytes * bytes :=
  match m with
  | [] => ([], [])
  | (id, dev) :: rest =>
    if beq path dev then
      match cut_last 95 id with
      | None => id_search path rest
      | Some (temp, serial) => (snd (cut 45 temp), serial)
      end
    else id_search path rest
  end.
(** drive_factory.go:166: the part after the last slash *)
Definition sole_dev (path : bytes) : bytes := match cut_last 47 path with Some (_, x) => x | None => path end.
(** drive_factory.go:127-180: model, serial, vendor, rev *)
Definition get_id_info (path : bytes) (a : id_answers) : res (bytes * bytes * bytes * bytes) :=
  match ia_dir a with
  | None => Err (EMsg "readdir /dev/disk/by-id failed")
  | Some names =>
    match id_map (ia_link a) names with
    | None => Err (EMsg "EvalSymlinks failed")
    | Some m =>
      let (model, serial) := id_search path (ia_order a m) in
      let file name := match ia_file a (str "/sys/block/" ++ sole_dev path ++ str name) with Some b => trim_space b | None => [] end in
      Ok (model, serial, file "/device/vendor"%string, file "/device/rev"%string)
    end
  end.
