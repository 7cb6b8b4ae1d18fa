(** Model of plat_linux/volume.go. *)
From Verif Require Import Base M_TcgDevice M_DriveHandle M_Strings M_LinuxInfo M_LinuxFactory.

(** What reading /proc/mounts gives: the text, and an error ending it (None: end of file). *)
Record mounts := { mt_text : bytes; mt_error : option err }.
Record vworld := { vw : world; vw_mounts : lhist -> err + mounts }.

(** bufio.Scanner with ScanLines (Go library, from its documentation and source): the lines terminated by '\n' and the unterminated rest.
    A line longer than 65535 bytes stops the scanner (64 KiB buffer). *)
Definition max_line : N := 65535.
Fixpoint split_lines (cur : bytes) (s : bytes) : list bytes * bytes :=
  match s with
  | [] => ([], rev cur)
  | b :: t => if b =? 10 then let (ls, r) := split_lines [] t in (rev cur :: ls, r) else split_lines (b :: cur) t
  end.
Fixpoint until_long (ls : list bytes) : list bytes * bool :=
  match ls with
  | [] => ([], false)
  | l :: t => if max_line <? blen l then ([], true) else let (k, b) := until_long t in (l :: k, b)
  end.
Definition drop_cr (l : bytes) : bytes := trim_suffix 13 l.
(** The tokens Scan delivers, and whether scanner.Err() is non-nil right after the last of them: a read error is known to the scanner
    only while an unterminated rest is pending (plat_linux/volume.go:174-176 asks only inside the loop). *)
Definition scan (m : mounts) : list bytes * option err :=
  let (ls, rest) := split_lines [] (mt_text m) in
  let (k, long) := until_long ls in
  if long then (map drop_cr k, None)
  else match rest with
       | [] => (map drop_cr k, None)
       | _ => if max_line <? blen rest then (map drop_cr k, None) else (map drop_cr (k ++ [rest]), mt_error m)
       end.

(** plat_linux/volume.go:19: ^(/dev/.+\d)p(\d+)$; the two groups.  [last_digits s] splits off the longest run of digits at the end. *)
Fixpoint digits_prefix (s : bytes) : bytes * bytes :=
  match s with [] => ([], []) | b :: t => if is_digit b then let (x, y) := digits_prefix t in (b :: x, y) else ([], s) end.
Definition partition_match (s : bytes) : option (bytes * bytes) :=
  let (rd, r) := digits_prefix (rev s) in
  match rd, r with
  | _ :: _, 112 :: parent_rev =>
    let parent := rev parent_rev in
    match parent_rev with
    | d :: mid =>
      if is_digit d && has_prefix (str "/dev/") parent && (7 <=? blen parent) && negb (existsb (N.eqb 10) (skipn 5 (rev mid)))
      then Some (parent, rev rd) else None
    | [] => None
    end
  | _, _ => None
  end.
(** strconv.Atoi on digits: the value, or the largest int if it does not fit (the error is ignored) *)
Definition dec_val (ds : bytes) : N := fold_left (fun a d => a * 10 + (d - 48)) ds 0.
Definition atoi (ds : bytes) : Z := Z.min (Z.of_N (dec_val ds)) (2 ^ 63 - 1).

(** plat_linux/volume.go:21-29 *)
Record pinfo := { pi_device : bytes; pi_parent : bytes; pi_start : N; pi_size : N; pi_style : N;
                  pi_gpt : option (bytes * bytes); pi_mbr : option (N * bool) }.
(** plat_linux/volume.go:31-36 *)
Record volume := { vo_path : bytes; vo_fs : bytes; vo_mounts : list bytes; vo_part : option pinfo }.
(** plat_linux/volume.go:38-41; the map as a list of pairs with distinct keys *)
Definition volumes := list (bytes * volume).

(** uint64(x) *)
Definition to_uint64 (z : Z) : N := Z.to_N (z mod 2 ^ 64).
Definition braced (s : bytes) : bytes := map upper (str "{" ++ s ++ str "}").
(** table.Partitions[i] after i < len(table.Partitions): a negative index panics *)
Definition pick (ps : list part) (i : Z) : res (option part) :=
  if (i <? Z.of_nat (List.length ps))%Z then if (i <? 0)%Z then Panic else Ok (nth_error ps (Z.to_nat i)) else Ok None.
(** plat_linux/volume.go:137-171: the partition found for number [num] (already decremented), if any *)
Definition find_part (device parent : bytes) (num : Z) (b : basic) : res (option pinfo) :=
  match ba_table b with
  | TGpt _ ps =>
    match pick ps num with
    | Ok (Some q) => Ok (Some {| pi_device := device; pi_parent := parent; pi_start := to_uint64 (pt_start q); pi_size := to_uint64 (pt_start q);
                                 pi_style := ba_style b; pi_gpt := Some (braced (pt_type q), braced (pt_guid q)); pi_mbr := None |})
    | Ok None => Ok None | Err e => Err e | Panic => Panic | Fuel => Fuel
    end
  | TMbr ps =>
    match pick ps num with
    | Ok (Some q) => Ok (Some {| pi_device := device; pi_parent := parent; pi_start := to_uint64 (pt_start q); pi_size := to_uint64 (pt_start q);
                                 pi_style := ba_style b; pi_gpt := None; pi_mbr := Some (pt_mbr_type q, pt_bootable q) |})
    | Ok None => Ok None | Err e => Err e | Panic => Panic | Fuel => Fuel
    end
  | TOther => Ok None
  end.

(** plat_linux/volume.go:105-111 *)
Definition line_fields (l : bytes) : bytes * bytes * bytes :=
  let (device, t1) := cut 32 l in let (mount, t2) := cut 32 t1 in let (fs, _) := cut 32 t2 in (device, mount, fs).

(** plat_linux/volume.go:113-123: find or create, then update *)
Definition new_volume (device fs mount : bytes) : volume := {| vo_path := device; vo_fs := fs; vo_mounts := [mount]; vo_part := None |}.
Definition touch (device fs mount : bytes) (v : volume) : volume :=
  if beq (vo_path v) [] then {| vo_path := device; vo_fs := fs; vo_mounts := vo_mounts v ++ [mount]; vo_part := vo_part v |}
  else {| vo_path := vo_path v; vo_fs := vo_fs v; vo_mounts := vo_mounts v ++ [mount]; vo_part := vo_part v |}.
Fixpoint upsert (device fs mount : bytes) (vs : volumes) : volumes :=
  match vs with
  | [] => [(device, new_volume device fs mount)]
  | (k, v) :: t => if beq k device then (k, touch device fs mount v) :: t else (k, v) :: upsert device fs mount t
  end.
Definition with_part (v : volume) (q : pinfo) : volume :=
  {| vo_path := vo_path v; vo_fs := vo_fs v; vo_mounts := vo_mounts v; vo_part := Some q |}.
Fixpoint set_part (device : bytes) (q : pinfo) (vs : volumes) : volumes :=
  match vs with [] => [] | (k, v) :: t => if beq k device then (k, with_part v q) :: t else (k, v) :: set_part device q t end.

(** plat_linux/volume.go:125-172: one line.  cachedBasics is never written, so the parent is opened for every line; the descriptor is never closed. *)
Definition volume_line (W : world) (h : lhist) (l : bytes) (vs : volumes) : lhist * res volumes :=
  let '(device, mount, fs) := line_fields l in
  let vs1 := upsert device fs mount vs in
  match partition_match device with
  | None => (h, Ok vs1)
  | Some (parent, ds) =>
    let num := (atoi ds - 1)%Z in
    let h1 := h ++ [LOpen parent] in
    match w_open W h1 with
    | inl _ => (h1, Ok vs1)
    | inr fd =>
      let h2 := h1 ++ [LBasic fd parent] in
      match read_basic_info parent (w_basic W h2) with
      | Ok b =>
        match find_part device parent num b with
        | Ok (Some q) => (h2, Ok (set_part device q vs1))
        | Ok None => (h2, Ok vs1)
        | Err e => (h2, Err e) | Panic => (h2, Panic) | Fuel => (h2, Fuel)
        end
      | _ => (h2, Ok vs1)
      end
    end
  end.
Fixpoint volume_lines (W : world) (h : lhist) (ls : list bytes) (vs : volumes) : lhist * res volumes :=
  match ls with
  | [] => (h, Ok vs)
  | l :: t => match volume_line W h l vs with (h1, Ok vs1) => volume_lines W h1 t vs1 | r => r end
  end.
(** plat_linux/volume.go:89-180; opening and closing /proc/mounts itself is one event *)
Definition enum_volumes (W : vworld) (h : lhist) : lhist * res volumes :=
  let h1 := h ++ [LMounts] in
  match vw_mounts W h1 with
  | inl e => (h1, Err e)
  | inr m =>
    let (ls, late) := scan m in
    match volume_lines (vw W) h1 ls [] with
    | (h2, Ok vs) => (h2, match late with Some e => Err e | None => Ok vs end)
    | r => r
    end
  end.

(** common/types.go VolumeInfo; plat_linux/volume.go:43-53 *)
Record volume_info := { vi_path : bytes; vi_fs : bytes; vi_mounts : list bytes; vi_parts : list pinfo }.
Definition to_volume_info (v : volume) : volume_info :=
  {| vi_path := vo_path v; vi_fs := vo_fs v; vi_mounts := vo_mounts v; vi_parts := match vo_part v with Some q => [q] | None => [] end |}.
(** plat_linux/volume.go:55-71; [order] is the order in which the runtime walks the map *)
Definition get_list (order : volumes -> volumes) (vs : volumes) : list volume_info := map (fun e => to_volume_info (snd e)) (order vs).
Definition find_volumes_by_drive (order : volumes -> volumes) (vs : volumes) (path : bytes) : list volume_info :=
  map (fun e => to_volume_info (snd e)) (filter (fun e => beq (vo_path (snd e)) path) (order vs)).
(** plat_linux/volume.go:73-82; None: (nil, nil) *)
Definition open_drive_by_volume_path (W : world) (order : volumes -> volumes) (vs : volumes) (h : lhist) (p : bytes) : lhist * option (res handle) :=
  let q := trim_suffix 47 p in
  match order vs with
  | (_, v) :: _ => if beq (trim_suffix 47 (vo_path v)) q then let (h1, r) := open_by_path W h q in (h1, Some r) else (h, None)
  | [] => (h, None)
  end.
(** plat_linux/volume.go:84-87; a partition not from this package (None) panics *)
Definition open_drive_by_partition (W : world) (h : lhist) (q : option pinfo) : lhist * res handle :=
  match q with Some x => open_by_path W h (pi_parent x) | None => (h, Panic) end.
