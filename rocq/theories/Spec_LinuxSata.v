(** Vocabulary for TCG operations on a SATA drive opened by path on Linux. *)
From Verif Require Import Base M_Cdb M_SgDriver Spec_Sg Prop_Sg.

(** The kernel accepts every SECURITY PROTOCOL IN/OUT on this drive (libata translates them to TRUSTED RECEIVE/SEND). *)
Definition takes_security (K : kern) : Prop := forall k c s, security_decode (sg_cdb c) = Some s -> succeeded (K (k ++ [c])).
(** ... or none of them. *)
Definition refuses_security (K : kern) : Prop := forall k c s, security_decode (sg_cdb c) = Some s -> ~ succeeded (K (k ++ [c])).
(** A SECURITY PROTOCOL command of protocol 1 for one ComID: a send of 512 bytes, or a receive of 2048. *)
Definition sata_protocol1 (com : N) (c : sg_call) : Prop :=
  exists out len, security_decode (sg_cdb c) = Some {| sc_out := out; sc_protocol := 1; sc_specific := com; sc_inc512 := false; sc_length := len |}
  /\ len = (if out then 512 else 2048).
(** What the drive receives: the memory handed over with each SECURITY PROTOCOL OUT, in order. *)
Definition is_out (c : sg_call) : bool := match security_decode (sg_cdb c) with Some s => sc_out s | None => false end.
Definition sata_received (calls : list sg_call) : list bytes := map sg_mem (filter is_out calls).
