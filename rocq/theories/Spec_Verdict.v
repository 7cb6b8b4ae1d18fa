(** Specification for C183: Authenticate by the book (TCG Core 5.3.4.1.14: the result is a boolean, TRUE for success). *)
From Verif Require Import Base Spec_Tcg M_TcgToken M_Buffer M_TcgCommand M_TcgDevice M_TcgSession Spec_TcgCommand Spec_TcgClient Spec_TcgSession Spec_Conform
  M_NvmeLinux Spec_NvmeLinux Spec_NvmeConform.

(** The result [ boolean ] with status success *)
Definition boolean_result (b : bool) : list atom := [Ctl 0xF0; Tiny false (if b then 1 else 0); Ctl 0xF1] ++ status_list 0.
Definition same (a b : bytes) : bool := if list_eq_dec N.eq_dec a b then true else false.

(** The calls: NewTcgSession, SetNoHashPassword([plain]), Start([sp], "", nobody), Authenticate([who], [pw]); None if Start failed. *)
Definition open_and_authenticate (E : env) (d : device) (plain : bool) (sp who pw : bytes) (h : hist) : option (res unit) :=
  let '(s1, h1, r1) := session_start E d (set_no_hash_password new_session plain) sp [] (AUid (repeat 255 8)) h in
  match r1 with Ok _ => Some (snd (authenticate E d s1 (uid8 who) pw h1)) | _ => None end.

Definition open_packet (com : N) (sp : bytes) : bytes := frame 0 0 com (start_payload sp None []).
Definition judge_packet (com hv tv : N) (who challenge : bytes) : bytes := frame hv tv com (authenticate_payload (uid8 who) (Some challenge)).

(** The drive grants an anonymous session [hv], [tv] with [sp], and in it says TRUE to the PIN of [who] and FALSE to any other byte string. *)
Definition judges (E : env) (com : N) (h : hist) (sp who pin : bytes) (hv tv : N) : Prop :=
  (exists ah at_ more, unsigned_atom ah hv /\ unsigned_atom at_ tv /\ replies E com (open_packet com sp) h (sync_session ah at_ more))
  /\ forall k ch, wf ch -> 1 <= blen ch <= 400 -> replies E com (judge_packet com hv tv who ch) (h ++ exchange com (open_packet com sp) k) (boolean_result (same ch pin)).
(** The same of an NVMe drive, seen through the requests made on [fd]. *)
Definition nvme_judges (K : nv_kern) (fd com : N) (k : nv_hist) (n : nat) (sp who pin : bytes) (hv tv : N) : Prop :=
  (exists ah at_ more, unsigned_atom ah hv /\ unsigned_atom at_ tv /\ nvme_replies K fd com (open_packet com sp) k n (sync_session ah at_ more))
  /\ forall c rs ch, if_send fd com (open_packet com sp) c -> Forall (if_recv fd com) rs -> wf ch -> 1 <= blen ch <= 400 ->
       nvme_replies K fd com (judge_packet com hv tv who ch) (k ++ c :: rs) n (boolean_result (same ch pin)).
