(** Specification for C180: an NVMe controller behind the Linux kernel that holds TCG conversations by the book, in terms of the ioctls it is asked
    (NVMe 5.25/5.26 Security Send and Receive, TCG SIIS). *)
From Verif Require Import Base Spec_Tcg M_TcgToken M_Buffer M_TcgCommand M_TcgDevice M_TcgSession M_NvmeLinux Spec_NvmeLinux Spec_Sg Prop_NvmeLinux Spec_TcgCommand Spec_TcgClient
  Spec_TcgSession Spec_Conform.

(** Security Send of [packet] and Security Receive of 2048 bytes, protocol 1, to [com] *)
Definition if_send (fd com : N) (packet : bytes) (c : nv_call) : Prop :=
  nc_fd c = fd /\ nc_req c = 0xC0484E41 /\ nc_buf c = packet /\
  exists addr, read_passthru (nc_arg c) = plain_view 0x81 0 addr (blen packet) (2 ^ 24 + 2 ^ 8 * com) (blen packet).
Definition if_recv (fd com : N) (c : nv_call) : Prop :=
  nc_fd c = fd /\ nc_req c = 0xC0484E41 /\ nc_buf c = zeros 2048 /\
  exists addr, read_passthru (nc_arg c) = plain_view 0x82 0 addr 2048 (2 ^ 24 + 2 ^ 8 * com) 2048.

(** With the ioctls [k] behind it, the controller takes [packet], answers [n] receives by "more outstanding, nothing to transfer yet", and then delivers
    [atoms] - with empty atoms anywhere in between - in a packet with its length fields set. *)
Definition nvme_replies (K : nv_kern) (fd com : N) (packet : bytes) (k : nv_hist) (n : nat) (atoms : list atom) : Prop :=
  forall c rs, if_send fd com packet c -> Forall (if_recv fd com) rs -> (List.length rs <= S n)%nat ->
  nv_succeeded (K (k ++ c :: rs))
  /\ forall buf, delivered (zeros 2048) (na_in (K (k ++ c :: rs))) buf ->
     ((1 <= List.length rs <= n)%nat -> wants_poll buf)
     /\ (List.length rs = S n -> ~ wants_poll buf /\ has_payload buf /\ exists sent, carries buf (stream sent) /\ Forall atom_ok sent /\ visible sent = atoms).

(** Ten seconds are enough for the controller: so long does the library poll. *)
Definition fast_enough (clock : hist -> N) (com : N) (n : nat) : Prop :=
  forall h packet i, (i <= n)%nat -> clock (h ++ exchange com packet i ++ [EvNow]) <= clock (h ++ [EvNow]) + 10000000000.

(** It has a PSID: with the ioctls [k] behind it, a StartSession on the Admin SP for PSID is granted - with these session numbers - when it presents [psid],
    and refused with status [st] when it presents another byte string; in the session granted, a Revert of the Admin SP is executed. *)
Definition psid_start (com : N) (challenge : bytes) : bytes := frame 0 0 com (start_payload uid_AdminSP (Some challenge) (uid8 uid_PSID)).
Definition checks_psid (K : nv_kern) (fd com : N) (k : nv_hist) (n : nat) (psid : bytes) (hv tv st : N) : Prop :=
  (exists ah at_ more, unsigned_atom ah hv /\ unsigned_atom at_ tv /\ nvme_replies K fd com (psid_start com psid) k n (sync_session ah at_ more))
  /\ (forall challenge, wf challenge -> 1 <= blen challenge <= 400 -> challenge <> psid -> nvme_replies K fd com (psid_start com challenge) k n (no_result st))
  /\ (forall c rs, if_send fd com (psid_start com psid) c -> Forall (if_recv fd com) rs ->
        nvme_replies K fd com (frame hv tv com revert_payload) (k ++ c :: rs) n (no_result 0)).

(** It has an MSID: an anonymous session on the Admin SP is granted and the PIN column of C_PIN_MSID, read in it, is [msid]. *)
Definition shows_msid (K : nv_kern) (fd com : N) (k : nv_hist) (n : nat) (msid : bytes) : Prop :=
  let start := frame 0 0 com (start_payload uid_AdminSP None []) in
  exists ah hv at_ tv more cell, unsigned_atom ah hv /\ unsigned_atom at_ tv /\ bytes_of cell msid
  /\ nvme_replies K fd com start k n (sync_session ah at_ more)
  /\ forall c rs, if_send fd com start c -> Forall (if_recv fd com) rs ->
       nvme_replies K fd com (frame hv tv com (get_payload (uid8 uid_C_PIN_MSID) 3 3)) (k ++ c :: rs) n (one_cell 3 cell).
