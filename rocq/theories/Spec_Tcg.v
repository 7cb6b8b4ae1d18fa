(** Independent specification of the TCG Storage data-stream encoding and packet layout
    (TCG Storage Architecture Core Specification 2.01, sections 3.2.2.3 and 3.2.3).
    Written from the standard; it does not refer to the model of the Go code. *)
From Verif Require Import Base.

(** ---- atoms and control tokens ---- *)
Inductive atom : Type :=
| Tiny (signed : bool) (v : N)                       (* 0 S vvvvvv *)
| Short (bytestr signed : bool) (data : bytes)       (* 10 B S nnnn + data *)
| Medium (bytestr signed : bool) (data : bytes)      (* 110 B S nnn nnnnnnnn + data *)
| Long (bytestr signed : bool) (data : bytes)        (* 111000 B S n(24) + data *)
| Ctl (t : N).                                       (* 0xF0 .. 0xFF *)

Definition b2n (b : bool) : N := if b then 1 else 0.

Definition atom_ok (a : atom) : Prop :=
  match a with
  | Tiny _ v => v < 64
  | Short _ _ d => wf d /\ blen d < 16
  | Medium _ _ d => wf d /\ blen d < 2048
  | Long _ _ d => wf d /\ blen d < 2 ^ 24
  | Ctl t => 0xF0 <= t /\ t <= 0xFF
  end.

Definition encode (a : atom) : bytes :=
  match a with
  | Tiny s v => [64 * b2n s + v]
  | Short b s d => (128 + 32 * b2n b + 16 * b2n s + blen d) :: d
  | Medium b s d => (192 + 16 * b2n b + 8 * b2n s + blen d / 256) :: (blen d mod 256) :: d
  | Long b s d => (224 + 2 * b2n b + b2n s) :: (blen d / 65536) :: (blen d / 256 mod 256) :: (blen d mod 256) :: d
  | Ctl t => [t]
  end.

Definition empty_atom : atom := Ctl 0xFF.
Definition is_empty_atom (a : atom) : bool := match a with Ctl t => t =? 0xFF | _ => false end.
Definition visible (l : list atom) : list atom := filter (fun a => negb (is_empty_atom a)) l.

Definition stream (l : list atom) : bytes := concat (map encode l).

(** What the standard says an atom is. *)
Inductive kind : Type := KBytes | KSint | KUint | KCtl (t : N).
Definition atom_kind (a : atom) : kind :=
  match a with
  | Tiny s _ => if s then KSint else KUint
  | Short b s _ | Medium b s _ | Long b s _ => if b then KBytes else if s then KSint else KUint
  | Ctl t => KCtl t
  end.

(** The same classification from the leading byte alone (bit patterns of the standard). *)
Definition lead_kind (b : N) : kind :=
  if b <? 0x80 then (if N.testbit b 6 then KSint else KUint)
  else if b <? 0xC0 then (if N.testbit b 5 then KBytes else if N.testbit b 4 then KSint else KUint)
  else if b <? 0xE0 then (if N.testbit b 4 then KBytes else if N.testbit b 3 then KSint else KUint)
  else if b <? 0xF0 then (if N.testbit b 1 then KBytes else if N.testbit b 0 then KSint else KUint)
  else KCtl b.

(** Data bytes of an atom. *)
Definition atom_data (a : atom) : bytes :=
  match a with Tiny _ _ | Ctl _ => [] | Short _ _ d | Medium _ _ d | Long _ _ d => d end.

(** The smallest of the width classes 1/2/4/8 for an unsigned integer. *)
Definition number_atom (v : N) : atom :=
  if v <? 64 then Tiny false v
  else if v <? 2 ^ 8 then Short false false (be_bytes 1 v)
  else if v <? 2 ^ 16 then Short false false (be_bytes 2 v)
  else if v <? 2 ^ 32 then Short false false (be_bytes 4 v)
  else Short false false (be_bytes 8 v).

(** Byte string atom for a text of 1..2047 bytes: short below 16 bytes, else medium. *)
Definition string_atom (t : bytes) : atom :=
  if blen t <? 16 then Short true false t else Medium true false t.

(** ---- packet framing: ComPacket (20) + Packet (24) + Data SubPacket (12) headers ---- *)
Definition header_size : nat := 56.
Definition resp_size : nat := 2048.
Definition cmd_capacity : N := 61440.

(** Field offsets in the 56-byte header. *)
Definition off_comid : nat := 4.
Definition off_outstanding : nat := 8.
Definition off_mintransfer : nat := 12.
Definition off_cp_len : nat := 16.
Definition off_tsn : nat := 20.
Definition off_hsn : nat := 24.
Definition off_pkt_len : nat := 40.
Definition off_sub_len : nat := 52.

(** Round up to a multiple of four / 512. *)
Definition pad4 (n : N) : N := (n + 3) / 4 * 4.
Definition pad512 (n : N) : N := (n + 511) / 512 * 512.

(** Control tokens. *)
Definition T_StartList : N := 0xF0.
Definition T_EndList : N := 0xF1.
Definition T_StartName : N := 0xF2.
Definition T_EndName : N := 0xF3.
Definition T_Call : N := 0xF8.
Definition T_EndOfData : N := 0xF9.
Definition T_EndOfSession : N := 0xFA.

(** End-of-data marker followed by the empty status list. *)
Definition status_trailer : bytes := [T_EndOfData; T_StartList; 0; 0; 0; T_EndList].

(** ---- reading a received buffer in the presence of memory behind it ---- *)

(** Memory seen from a buffer: its bytes, then arbitrary other bytes. *)
Definition memory (buf : bytes) (heap : N -> N) (i : N) : N :=
  if i <? blen buf then nth (N.to_nat i) buf 0 else heap i.

Definition mem_slice (m : N -> N) (cur n : N) : bytes :=
  map (fun k => m (cur + N.of_nat k)) (seq 0 (N.to_nat n)).

(** Total size of the atom or control token whose first byte is at [i], by the encoding table. *)
Definition atom_extent (m : N -> N) (i : N) : N :=
  let b := m i in
  if b <? 0x80 then 1
  else if b <? 0xC0 then b mod 16 + 1
  else if b <? 0xE0 then (b mod 8) * 256 + m (i + 1) + 2
  else if b <? 0xF0 then m (i + 1) * 65536 + m (i + 2) * 256 + m (i + 3) + 4
  else 1.

(** [tiled m cur end all]: [all] are the consecutive atoms starting at [cur], up to the first position
    at or after [end]. *)
Inductive tiled (m : N -> N) : N -> N -> list bytes -> Prop :=
| tiled_done cur end_ : end_ <= cur -> tiled m cur end_ []
| tiled_step cur end_ rest :
    cur < end_ ->
    tiled m (cur + atom_extent m cur) end_ rest ->
    tiled m cur end_ (mem_slice m cur (atom_extent m cur) :: rest).

(** Some atom starting inside [cur, end) runs past position [limit]. *)
Inductive overruns (m : N -> N) (limit : N) : N -> N -> Prop :=
| over_here cur end_ : cur < end_ -> limit < cur + atom_extent m cur -> overruns m limit cur end_
| over_later cur end_ : cur < end_ -> overruns m limit (cur + atom_extent m cur) end_ -> overruns m limit cur end_.

Definition not_empty_atom (t : bytes) : bool :=
  match t with [b] => negb (b =? 0xFF) | _ => true end.
