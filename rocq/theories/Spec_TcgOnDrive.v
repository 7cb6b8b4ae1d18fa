(** Vocabulary for TCG operations carried out by a real driver: what the operating system is asked, in terms of the numbers of its own
    interface (Spec_NvmeLinux, Spec_Sg, Spec_WinPass). *)
From Verif Require Import Base M_TcgDevice M_NvmeLinux Spec_NvmeLinux.

(** A security command of the TCG client: direction, protocol, ComID and the buffer handed over. *)
Record security := { x_out : bool; x_protocol : N; x_comid : N; x_data : bytes }.
Fixpoint commands (t : hist) : list security :=
  match t with
  | [] => []
  | EvSec rw _ protocol comId b _ :: t' => {| x_out := rw; x_protocol := protocol; x_comid := comId; x_data := b |} :: commands t'
  | _ :: t' => commands t'
  end.

(** Values that the Go types of SecurityCommand admit. *)
Definition typed (x : security) : Prop := x_protocol x < 256 /\ x_comid x < 2 ^ 16 /\ wf (x_data x) /\ blen (x_data x) < 2 ^ 32.

(** An NVMe Security Send (81h) / Receive (82h) on descriptor [fd]: protocol in bits 24-31 and ComID in bits 8-23 of dword 10, transfer
    length in dword 11, no namespace, the data of the command in the buffer. *)
Definition nvme_security (fd : N) (x : security) (c : nv_call) : Prop :=
  nc_fd c = fd /\ nc_req c = 0xC0484E41 /\ nc_buf c = x_data x
  /\ exists addr, read_passthru (nc_arg c) =
       plain_view (if x_out x then 0x81 else 0x82) 0 addr (blen (x_data x)) (2 ^ 24 * x_protocol x + 2 ^ 8 * x_comid x) (blen (x_data x)).

(** What the controller receives: the buffers of the Security Sends among ioctls, in order. *)
Definition nvme_received (calls : list nv_call) : list bytes :=
  map nc_buf (filter (fun c => up_opcode (read_passthru (nc_arg c)) =? 0x81) calls).
