(** What SAT-3 / SPC-4 / ACS say about the bytes exchanged through SG_IO; nothing here refers to the model. *)
From Verif Require Import Base.

(** Bit [i] of a byte, bits [lo .. lo+w-1] as a number. *)
Definition bit_range (b lo w : N) : N := (b / 2 ^ lo) mod 2 ^ w.

(** An ATA command as the SATL reads it out of ATA PASS-THROUGH (12) (SAT-3 table 159) or (16) (SAT-3 table 160); the reserved and
    CONTROL bytes have to be zero. *)
Record sat_cmd := {
  sat_multiple : N; sat_protocol : N; sat_extend : bool;
  sat_offline : N; sat_ck_cond : bool; sat_t_type : bool; sat_from_device : bool; sat_byte_block : bool; sat_t_length : N;
  sat_features : N; sat_count : N; sat_lba : N; sat_device : N; sat_command : N
}.
(** LBA registers: low, mid, high, then their previous contents. *)
Definition lba48 (l m h l' m' h' : N) : N := l + 2 ^ 8 * m + 2 ^ 16 * h + 2 ^ 24 * l' + 2 ^ 32 * m' + 2 ^ 40 * h'.
Definition sat_decode (cdb : bytes) : option sat_cmd :=
  let b i := nth i cdb 0 in
  if (blen cdb =? 12) && (b 0%nat =? 0xA1) && (b 10%nat =? 0) && (b 11%nat =? 0) && negb (N.testbit (b 1%nat) 0) then
    Some {| sat_multiple := bit_range (b 1%nat) 5 3; sat_protocol := bit_range (b 1%nat) 1 4; sat_extend := false;
            sat_offline := bit_range (b 2%nat) 6 2; sat_ck_cond := N.testbit (b 2%nat) 5; sat_t_type := N.testbit (b 2%nat) 4;
            sat_from_device := N.testbit (b 2%nat) 3; sat_byte_block := N.testbit (b 2%nat) 2; sat_t_length := bit_range (b 2%nat) 0 2;
            sat_features := b 3%nat; sat_count := b 4%nat; sat_lba := lba48 (b 5%nat) (b 6%nat) (b 7%nat) 0 0 0;
            sat_device := b 8%nat; sat_command := b 9%nat |}
  else if (blen cdb =? 16) && (b 0%nat =? 0x85) && (b 15%nat =? 0) then
    Some {| sat_multiple := bit_range (b 1%nat) 5 3; sat_protocol := bit_range (b 1%nat) 1 4; sat_extend := N.testbit (b 1%nat) 0;
            sat_offline := bit_range (b 2%nat) 6 2; sat_ck_cond := N.testbit (b 2%nat) 5; sat_t_type := N.testbit (b 2%nat) 4;
            sat_from_device := N.testbit (b 2%nat) 3; sat_byte_block := N.testbit (b 2%nat) 2; sat_t_length := bit_range (b 2%nat) 0 2;
            sat_features := 256 * b 3%nat + b 4%nat; sat_count := 256 * b 5%nat + b 6%nat;
            sat_lba := lba48 (b 8%nat) (b 10%nat) (b 12%nat) (b 7%nat) (b 9%nat) (b 11%nat);
            sat_device := b 13%nat; sat_command := b 14%nat |}
  else None.

(** SAT-3 table 161 PROTOCOL values used here. *)
Inductive ata_protocol := NonData | PioIn | PioOut | Dma.
Definition protocol_code (p : ata_protocol) : N := match p with NonData => 3 | PioIn => 4 | PioOut => 5 | Dma => 6 end.

(** The ATA Status Return descriptor (SAT-3 table 171) that starts at byte 8 of descriptor-format sense data. *)
Record ata_status := { as_extend : bool; as_error : N; as_count : N; as_lba : N; as_device : N; as_status : N }.
Definition ata_status_return (sense : bytes) : ata_status :=
  let d i := nth (8 + i) sense 0 in
  {| as_extend := N.testbit (d 2%nat) 0; as_error := d 3%nat;
     as_count := if N.testbit (d 2%nat) 0 then 256 * d 4%nat + d 5%nat else d 5%nat;
     as_lba := if N.testbit (d 2%nat) 0 then lba48 (d 7%nat) (d 9%nat) (d 11%nat) (d 6%nat) (d 8%nat) (d 10%nat)
               else lba48 (d 7%nat) (d 9%nat) (d 11%nat) 0 0 0;
     as_device := d 12%nat; as_status := d 13%nat |}.

(** Sense key and additional sense code (SPC-4 4.5): fixed format 70h/71h, descriptor format 72h/73h. *)
Definition sense_key (sense : bytes) : option N :=
  let c := bit_range (nth 0 sense 0) 0 7 in
  if (c =? 0x70) || (c =? 0x71) then Some (bit_range (nth 2 sense 0) 0 4)
  else if (c =? 0x72) || (c =? 0x73) then Some (bit_range (nth 1 sense 0) 0 4)
  else None.

(** SECURITY PROTOCOL IN / OUT (SPC-4 6.30, 6.31); the reserved bits and bytes and the CONTROL byte have to be zero. *)
Record security_cdb := { sc_out : bool; sc_protocol : N; sc_specific : N; sc_inc512 : bool; sc_length : N }.
Definition security_decode (cdb : bytes) : option security_cdb :=
  let b i := nth i cdb 0 in
  if (blen cdb =? 12) && ((b 0%nat =? 0xA2) || (b 0%nat =? 0xB5)) && (bit_range (b 4%nat) 0 7 =? 0) && (b 5%nat =? 0)
     && (b 10%nat =? 0) && (b 11%nat =? 0) then
    Some {| sc_out := b 0%nat =? 0xB5; sc_protocol := b 1%nat; sc_specific := 256 * b 2%nat + b 3%nat;
            sc_inc512 := N.testbit (b 4%nat) 7;
            sc_length := 2 ^ 24 * b 6%nat + 2 ^ 16 * b 7%nat + 2 ^ 8 * b 8%nat + b 9%nat |}
  else None.

(** Contents of a buffer of length [len] after a device delivered [new] into memory that held [old]. *)
Definition delivered (old new got : bytes) : Prop :=
  List.length got = List.length old
  /\ (forall i, (i < List.length new)%nat -> (i < List.length old)%nat -> nth_error got i = nth_error new i)
  /\ (forall i, (List.length new <= i)%nat -> nth_error got i = nth_error old i).
