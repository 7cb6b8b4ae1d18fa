(** Specification for C185: reading table cells by the book (TCG Core 5.3.3.6 Get, 5.1.5.2 Cellblock results: a list of name/value pairs). *)
From Verif Require Import Base Spec_Tcg M_TcgToken M_Buffer M_TcgCommand M_TcgDevice M_TcgSession Spec_TcgCommand Spec_TcgClient Spec_TcgSession Spec_Conform
  M_NvmeLinux Spec_NvmeLinux Spec_NvmeConform M_SgDriver Spec_Sg Spec_SataConform.

(** A column of the answer: its number, as an atom, and its value *)
Record cell := { c_name : atom; c_number : N; c_value : atom }.
Definition cell_ok (c : cell) : Prop := unsigned_atom (c_name c) (c_number c) /\ atom_ok (c_value c).
Definition cell_atoms (c : cell) : list atom := [Ctl 0xF2; c_name c; c_value c; Ctl 0xF3].
(** [ [ n1 = v1, n2 = v2, ... ] ] with status success *)
Definition row (cs : list cell) : list atom := [Ctl 0xF0; Ctl 0xF0] ++ concat (map cell_atoms cs) ++ [Ctl 0xF1; Ctl 0xF1] ++ status_list 0.

(** OpalGetTable of columns [q_first] to [q_last] of the table or row with this UID, and what the drive says to it *)
Record query := { q_table : bytes; q_first : N; q_last : N }.
Definition query_ok (q : query) : Prop := wf (q_table q) /\ List.length (q_table q) = 8%nat /\ q_first q < 2 ^ 16 /\ q_last q < 2 ^ 16.
Inductive reply := Shown (cs : list cell) | Denied (st : N).
Definition reply_ok (r : reply) : Prop := match r with Shown cs => Forall cell_ok cs | Denied st => 1 <= st < 64 end.
Definition reply_atoms (r : reply) : list atom := match r with Shown cs => row cs | Denied st => no_result st end.
Definition query_packet (com hv tv : N) (q : query) : bytes := frame hv tv com (get_payload (uid8 (q_table q)) (q_first q) (q_last q)).

(** The drive, in the session [hv], [tv] and after [h], answers these queries one after the other by these replies. *)
Inductive answers_reads (E : env) (com hv tv : N) : hist -> list query -> list reply -> Prop :=
| answers_none h : answers_reads E com hv tv h [] []
| answers_next h q r qs rs : replies E com (query_packet com hv tv q) h (reply_atoms r) ->
    (forall k, answers_reads E com hv tv (h ++ exchange com (query_packet com hv tv q) k) qs rs) -> answers_reads E com hv tv h (q :: qs) (r :: rs).

(** The calls of the user: OpalGetTable(session, A8h table, first, last), one after the other *)
Fixpoint read_all (E : env) (d : device) (s : session) (h : hist) (qs : list query) : list (res pair_out) :=
  match qs with
  | [] => []
  | q :: qs => let '(h', x) := dev_opal_get_table E d s (uid8 (q_table q)) (q_first q) (q_last q) h in x :: read_all E d s h' qs
  end.

(** What the user sees: a refusal is returned with its status; the row is there, token by token: the name of the i-th column (from 0) is token 3 + 4i, its value
    token 4 + 4i, and the accessors decode them. *)
Definition shows (x : res pair_out) (r : reply) : Prop :=
  match r with
  | Denied st => exists resp, x = Ok (Some resp, Some (ETcg st))
  | Shown cs => exists resp, x = Ok (Some resp, None) /\ get_token_count resp = (10 + 4 * Z.of_nat (List.length cs))%Z
      /\ forall i c, nth_error cs i = Some c -> exists name value,
           get_token resp (3 + 4 * Z.of_nat i) = Ok (Some name) /\ get_token resp (4 + 4 * Z.of_nat i) = Ok (Some value)
           /\ (c_number c < 2 ^ 32 -> get_uint32 name = Ok (c_number c))
           /\ (forall text, bytes_of (c_value c) text -> get_string value = Ok text)
           /\ (forall v, unsigned_atom (c_value c) v -> (v < 2 ^ 64 -> get_uint64 value = Ok v) /\ (v < 2 ^ 32 -> get_uint32 value = Ok v) /\ (v < 2 ^ 8 -> get_uint8 value = Ok v))
  end.

(** The drive, seen through the ioctls on [fd] (Linux NVMe) ... *)
Inductive nvme_reads (K : nv_kern) (fd com hv tv : N) (n : nat) : nv_hist -> list query -> list reply -> Prop :=
| nvme_none k : nvme_reads K fd com hv tv n k [] []
| nvme_next k q r qs rs : nvme_replies K fd com (query_packet com hv tv q) k n (reply_atoms r) ->
    (forall c ks, if_send fd com (query_packet com hv tv q) c -> Forall (if_recv fd com) ks -> nvme_reads K fd com hv tv n (k ++ c :: ks) qs rs) ->
    nvme_reads K fd com hv tv n k (q :: qs) (r :: rs).
(** ... or the SG_IO requests (Linux SATA) *)
Inductive sata_reads (K : kern) (com hv tv : N) (n : nat) : sg_hist -> list query -> list reply -> Prop :=
| sata_none k : sata_reads K com hv tv n k [] []
| sata_next k q r qs rs : sata_replies K com (query_packet com hv tv q) k n (reply_atoms r) ->
    (forall c ks, sp_out com (query_packet com hv tv q) c -> Forall (sp_in com) ks -> sata_reads K com hv tv n (k ++ c :: ks) qs rs) ->
    sata_reads K com hv tv n k (q :: qs) (r :: rs).

(** StartSession on the SP [sp], presenting [cred] - or nothing - for the authority [who]; granted with the numbers [hv], [tv], and the queries answered after it *)
Definition session_start_packet (com : N) (sp : bytes) (cred : option bytes) (who : bytes) : bytes := frame 0 0 com (start_payload sp cred (uid8 who)).
Definition nvme_lets_read (K : nv_kern) (fd com : N) (k : nv_hist) (n : nat) (start : bytes) (hv tv : N) (qs : list query) (rs : list reply) : Prop :=
  (exists ah at_ more, unsigned_atom ah hv /\ unsigned_atom at_ tv /\ nvme_replies K fd com start k n (sync_session ah at_ more))
  /\ forall c ks, if_send fd com start c -> Forall (if_recv fd com) ks -> nvme_reads K fd com hv tv n (k ++ c :: ks) qs rs.
Definition sata_lets_read (K : kern) (com : N) (k : sg_hist) (n : nat) (start : bytes) (hv tv : N) (qs : list query) (rs : list reply) : Prop :=
  (exists ah at_ more, unsigned_atom ah hv /\ unsigned_atom at_ tv /\ sata_replies K com start k n (sync_session ah at_ more))
  /\ forall c ks, sp_out com start c -> Forall (sp_in com) ks -> sata_reads K com hv tv n (k ++ c :: ks) qs rs.
