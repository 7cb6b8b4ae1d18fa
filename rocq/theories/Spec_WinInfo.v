(** What Windows answers about a disk mean (ntddstor.h, ntdddisk.h, winioctl.h), independent of the model's parsing. *)
From Verif Require Import Base M_TcgDevice M_SgDriver M_WinPass M_WinInfo Spec_WinPass.

(** A query without direct data: input [inb], [n] bytes of output. *)
Definition query (hd code : N) (inb : bytes) (n : N) : wev :=
  WIo {| wc_handle := hd; wc_code := code; wc_in := inb; wc_outlen := n; wc_target := TNone; wc_mem := [] |}.
(** The output buffer after the query ending history [h], and the part of it the system says it returned. *)
Definition buffer_after (S : wsys) (h : whist) (n : N) : bytes := fill (zeros (N.to_nat n)) (wa_out (s_io S h)).
Definition got (S : wsys) (h : whist) (n : N) : bytes := firstn (N.to_nat (wa_ret (s_io S h))) (buffer_after S h n).

(** A query for an answer of unknown size: 4096 bytes are tried, then, if the system says they do not suffice (122), the size it names.
    [fetch S hd code inb h h' r]: starting with history [h] it ends with [h'] and [r], the buffer and the bytes returned.  An error is
    always the first call's. *)
Inductive fetch (S : wsys) (hd code : N) (inb : bytes) (h : whist) : whist -> res (bytes * bytes) -> Prop :=
| fetch_ok : forall h1, h1 = h ++ [query hd code inb 4096] -> wa_err (s_io S h1) = 0 -> wa_ret (s_io S h1) <= 4096 ->
    fetch S hd code inb h h1 (Ok (buffer_after S h1 4096, got S h1 4096))
| fetch_refused : forall h1, h1 = h ++ [query hd code inb 4096] -> wa_err (s_io S h1) <> 0 -> wa_err (s_io S h1) <> 122 ->
    fetch S hd code inb h h1 (Err (errno (wa_err (s_io S h1))))
| fetch_again : forall h1 n h2, h1 = h ++ [query hd code inb 4096] -> wa_err (s_io S h1) = 122 -> n = wa_ret (s_io S h1) -> n <> 0 ->
    h2 = h1 ++ [query hd code inb n] -> wa_err (s_io S h2) = 0 -> wa_ret (s_io S h2) <= n ->
    fetch S hd code inb h h2 (Ok (buffer_after S h2 n, got S h2 n))
| fetch_again_refused : forall h1 n h2, h1 = h ++ [query hd code inb 4096] -> wa_err (s_io S h1) = 122 -> n = wa_ret (s_io S h1) -> n <> 0 ->
    h2 = h1 ++ [query hd code inb n] -> wa_err (s_io S h2) <> 0 ->
    fetch S hd code inb h h2 (Err (errno 122))
(* the system names no size, or claims to have returned more than there is room for *)
| fetch_no_size : forall h1, h1 = h ++ [query hd code inb 4096] -> wa_err (s_io S h1) = 122 -> wa_ret (s_io S h1) = 0 ->
    fetch S hd code inb h h1 Panic
| fetch_too_much : forall h1, h1 = h ++ [query hd code inb 4096] -> wa_err (s_io S h1) = 0 -> 4096 < wa_ret (s_io S h1) ->
    fetch S hd code inb h h1 Panic
| fetch_again_too_much : forall h1 n h2, h1 = h ++ [query hd code inb 4096] -> wa_err (s_io S h1) = 122 -> n = wa_ret (s_io S h1) -> n <> 0 ->
    h2 = h1 ++ [query hd code inb n] -> wa_err (s_io S h2) = 0 -> n < wa_ret (s_io S h2) ->
    fetch S hd code inb h h2 Panic.

(** ---- GUIDs as text ---- *)
Definition hex_value (c : N) : option N :=
  if (48 <=? c) && (c <=? 57) then Some (c - 48)
  else if (65 <=? c) && (c <=? 70) then Some (c - 55)
  else if (97 <=? c) && (c <=? 102) then Some (c - 87) else None.
(** [s] is a hexadecimal numeral of value [v]. *)
Inductive reads16 : bytes -> N -> Prop :=
| reads_nil : reads16 [] 0
| reads_snoc : forall s v c d, reads16 s v -> hex_value c = Some d -> reads16 (s ++ [c]) (16 * v + d).
(** The 16 bytes of a GUID (a dword and two words, little-endian, then eight bytes) in the form 8-4-4-4-12. *)
Definition guid_text (g t : bytes) : Prop :=
  exists a b c d e, t = a ++ [45] ++ b ++ [45] ++ c ++ [45] ++ d ++ [45] ++ e /\
  List.length a = 8%nat /\ List.length b = 4%nat /\ List.length c = 4%nat /\ List.length d = 4%nat /\ List.length e = 12%nat /\
  reads16 a (field 0 4 g) /\ reads16 b (field 4 2 g) /\ reads16 c (field 6 2 g) /\
  reads16 d (be_val (slice 8 2 g)) /\ reads16 e (be_val (slice 10 6 g)).
Definition lower_case (t : bytes) : Prop := Forall (fun c => ~ 65 <= c <= 90) t.
Definition upper_case (t : bytes) : Prop := Forall (fun c => ~ 97 <= c <= 122) t.
(** "{...}" in upper case *)
Definition braced_guid (g t : bytes) : Prop := exists u, t = [123] ++ u ++ [125] /\ guid_text g u /\ upper_case u.

(** ---- DRIVE_LAYOUT_INFORMATION_EX: style, count, 40 bytes of disk information, then entries of 144 bytes ---- *)
Definition layout_style (data : bytes) : N := field 0 4 data.          (* 0 MBR, 1 GPT, 2 RAW *)
Definition layout_entry_at (data : bytes) (i : nat) : bytes := slice (48 + 144 * i) 144 data.
(** how many of the announced entries the answer contains in full *)
Definition layout_count (data : bytes) : nat := Nat.min (N.to_nat (field 4 4 data)) ((List.length data - 48) / 144).
(** Partition [p] is entry [e] of disk number [disk]. *)
Definition describes (gpt : bool) (disk : N) (e : bytes) (p : wpart) : Prop :=
  wp_disk p = disk /\ wp_start p = field 8 8 e /\ wp_size p = field 16 8 e /\ wp_entry p = e /\
  if gpt then wp_mbr p = None /\ exists t i, wp_gpt p = Some (t, i) /\ braced_guid (slice 32 16 e) t /\ braced_guid (slice 48 16 e) i
  else wp_gpt p = None /\ exists boot, wp_mbr p = Some (reg 32 e, boot) /\ (boot = true <-> reg 33 e <> 0).
Definition partitions_of (gpt : bool) (disk : N) (data : bytes) (ps : list wpart) : Prop :=
  List.length ps = layout_count data /\
  forall i p, nth_error ps i = Some p -> describes gpt disk (layout_entry_at data i) p.
(** The partition table [b] reports is the layout [data]; common.PartitionStyle: 0 raw, 1 MBR, 2 GPT. *)
Definition table_of (disk : N) (data : bytes) (b : wbasic) : Prop :=
  (layout_style data = 1 -> wb_style b = 2 /\ wb_mbr b = 0 /\ guid_text (slice 8 16 data) (wb_gpt b) /\ lower_case (wb_gpt b) /\
     partitions_of true disk data (wb_parts b)) /\
  (layout_style data = 0 -> wb_style b = 1 /\ wb_mbr b = field 8 4 data /\ wb_gpt b = [] /\ partitions_of false disk data (wb_parts b)) /\
  (layout_style data <> 0 -> layout_style data <> 1 -> wb_style b = 0 /\ wb_mbr b = 0 /\ wb_gpt b = [] /\ wb_parts b = []).
Definition no_table (b : wbasic) : Prop := wb_style b = 0 /\ wb_mbr b = 0 /\ wb_gpt b = [] /\ wb_parts b = [].
(** A layout the program cannot read: too short for its header, or an entry whose own style is not the disk's. *)
Definition unreadable_layout (data : bytes) : Prop :=
  (List.length data < 48)%nat \/
  (layout_style data = 0 \/ layout_style data = 1) /\
  exists i, (i < layout_count data)%nat /\ field 0 4 (layout_entry_at data i) <> layout_style data.

(** ---- STORAGE_DEVICE_DESCRIPTOR ---- *)
(** [t]: the zero-terminated text at offset [off] of [data] ("" for offset 0 or without terminator). *)
Definition text_at (data : bytes) (off : N) (t : bytes) : Prop :=
  (off = 0 /\ t = []) \/
  (off <> 0 /\ exists a r, data = a ++ t ++ 0 :: r /\ N.of_nat (List.length a) = off /\ ~ In 0 t) \/
  (off <> 0 /\ t = [] /\ exists a r, data = a ++ r /\ N.of_nat (List.length a) = off /\ ~ In 0 r).
(** [t] is [s] without the spaces around it. *)
Definition without_spaces (s t : bytes) : Prop :=
  exists a b, s = a ++ t ++ b /\ Forall (eq 32) a /\ Forall (eq 32) b /\ (forall x r, t = x :: r -> x <> 32) /\ (forall x r, t = r ++ [x] -> x <> 32).
Definition trimmed_text (data : bytes) (off : N) (t : bytes) : Prop := exists s, text_at data off s /\ without_spaces s t.
Definition descriptor_of (buf data : bytes) (d : descr) : Prop :=
  de_type d = reg 8 buf /\ de_modifier d = reg 9 buf /\ (de_removable d = true <-> reg 10 buf <> 0) /\ de_bus d = reg 28 buf /\
  trimmed_text data (field 12 4 buf) (de_vendor d) /\ trimmed_text data (field 16 4 buf) (de_product d) /\
  trimmed_text data (field 20 4 buf) (de_revision d) /\ trimmed_text data (field 24 4 buf) (de_serial d).
