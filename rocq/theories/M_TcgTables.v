(** Model of the table methods of tcg/device.go, device_opal.go and device_enterprise.go as called by a user. *)
From Verif Require Import Base M_TcgToken M_TcgDevice M_TcgSession.

(** OpalGetTable of the TcgDevice interface on receiver [p], given a session of a device [d] that need not be [p]:
    tcg/device.go:221-223 (also what an Enterprise device inherits), tcg/device_opal.go:49-51, 97-99, 132-155 *)
Definition device_get_table (E : env) (p d : device) (s : session) (table : bytes) (startCol endCol : N) (h : hist) : hist * res pair_out :=
  match d_kind p with
  | KOpal1 | KOpal2 => opal_get_table E d s table startCol endCol h
  | KGeneric | KEnterprise => (h, Ok (None, Some (EMsg "not supported")))
  end.
