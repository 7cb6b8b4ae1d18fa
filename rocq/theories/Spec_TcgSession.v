(** Specification vocabulary for TCG devices and sessions.  From the model it uses only the types of calls leaving the
    package ([ev], [hist], [env]) and of responses. *)
From Verif Require Import Base Spec_Tcg M_TcgToken M_TcgDevice M_TcgSession Spec_TcgCommand.

(** Answers of the drive and memory are bytes; PBKDF2 yields 32 bytes. *)
Definition env_ok (E : env) : Prop :=
  (forall h, wf (snd (e_sec E h))) /\ (forall j, e_heap E j < 256) /\
  (forall p s, List.length (e_pbkdf2 E p s) = 32%nat /\ wf (e_pbkdf2 E p s)).

(** Time slept in a stretch of history. *)
Fixpoint slept (h : hist) : N :=
  match h with
  | [] => 0
  | EvSleep ns :: h' => ns + slept h'
  | _ :: h' => slept h'
  end.

(** The clock never goes back and a sleep lasts at least as long as asked. *)
Definition timely (E : env) : Prop := forall h t, e_clock E h + slept t <= e_clock E (h ++ t).

(** I/O calls in a history: commands sent to the drive, and number of receives. *)
Fixpoint sends (h : hist) : list bytes :=
  match h with
  | [] => []
  | EvSec true _ _ _ b _ :: h' => b :: sends h'
  | _ :: h' => sends h'
  end.
Fixpoint receives (h : hist) : nat :=
  match h with
  | [] => 0
  | EvSec false _ _ _ _ _ :: h' => S (receives h')
  | _ :: h' => receives h'
  end.
Definition no_io (h : hist) : Prop := sends h = [] /\ receives h = 0%nat.

(** One poll round: read the clock, sleep 25 ms, receive 2048 bytes; and [k] of them. *)
Definition round (protocol comId : N) : hist :=
  [EvNow; EvSleep 25000000; EvSec false false protocol comId (zeros 2048) 5].
Definition rounds (protocol comId : N) (k : nat) : hist := concat (repeat (round protocol comId) k).

(** The drive asks for another poll: Outstanding (at 8) non-zero and MinTransfer (at 12) zero. *)
Definition wants_poll (buf : bytes) : Prop := be32_at off_outstanding buf <> 0 /\ be32_at off_mintransfer buf = 0.

(** The received buffer: what the drive stored, over zeros. *)
Definition received (b : bytes) : bytes := firstn 2048 b ++ zeros (2048 - List.length b).

(** During an Exec whose first I/O left the history [h1]: the drive's answer to receive number [i], and the time since
    [start] measured just before it. *)
Definition answer (E : env) (protocol comId : N) (h1 : hist) (i : nat) : option err * bytes :=
  e_sec E (h1 ++ rounds protocol comId (S i)).
Definition elapsed (E : env) (protocol comId start : N) (h1 : hist) (i : nat) : N :=
  e_clock E (h1 ++ rounds protocol comId i ++ [EvNow]) - start.

(** Receive number [i] made the caller poll again. *)
Definition poll_again (E : env) (protocol comId start : N) (h1 : hist) (i : nat) : Prop :=
  fst (answer E protocol comId h1 i) = None
  /\ wants_poll (received (snd (answer E protocol comId h1 i)))
  /\ elapsed E protocol comId start h1 i <= 10000000000.

(** Result of Exec when the last buffer received is [buf]: its tokens, or "illegal data" when it declares more payload
    than fits. *)
Definition exec_result (heap : N -> N) (buf : bytes) (r : res (option response * option err)) : Prop :=
  let L := be32_at off_sub_len buf in
  (L <= 1992 /\ exists all, tiled (memory buf heap) 56 (56 + L) all /\
     r = Ok (Some {| r_buf := buf; r_tokens := filter not_empty_atom all |}, None))
  \/ (1992 < L /\ r = Ok (Some {| r_buf := buf; r_tokens := [] |}, Some (EMsg "illegal data"))).

(** Value of an unsigned tiny or short atom. *)
Definition unsigned_value (t : bytes) : option N :=
  match t with
  | [] => None
  | b :: d =>
    if b <? 0x80 then (if N.testbit b 6 then None else Some (b mod 64))
    else if b <? 0xC0 then (if N.testbit b 4 then None else Some (be_val d))
    else None
  end.

(** Lead byte of a token. *)
Definition lead_is (t : bytes) (b : N) : Prop := exists d, t = b :: d.

(** The three length fields of a response. *)
Definition has_payload (buf : bytes) : Prop :=
  be32_at off_cp_len buf <> 0 /\ be32_at off_pkt_len buf <> 0 /\ be32_at off_sub_len buf <> 0.

(** Response tokens ending with a status list [F0 s x y F1]. *)
Definition ends_with_status (toks : list bytes) (s : bytes) : Prop :=
  exists pre sl x y el, toks = pre ++ [sl; s; x; y; el] /\ lead_is sl 0xF0 /\ lead_is el 0xF1.
Definition is_eos (toks : list bytes) : Prop := exists t rest, toks = t :: rest /\ lead_is t 0xFA.

(** The method was accepted by the drive, as SendCommand understands it. *)
Definition accepted (r : response) : Prop :=
  has_payload (r_buf r) /\
  (is_eos (r_tokens r) \/
   exists s v, ends_with_status (r_tokens r) s /\ unsigned_value s = Some v /\ v mod 256 = 0).

(** Every committed token is a non-empty byte string. *)
Definition tokens_ok (r : response) : Prop := Forall (fun t => t <> [] /\ wf t) (r_tokens r).

(** ---- method calls on the wire (TCG core spec 5.2 / Opal SSC) ---- *)
Definition uid8 (u : bytes) : bytes := 0xA8 :: u.
Definition uid_SMUID : bytes := [0; 0; 0; 0; 0; 0; 0; 0xFF].
Definition uid_ThisSP : bytes := [0; 0; 0; 0; 0; 0; 0; 1].
Definition uid_AdminSP : bytes := [0; 0; 2; 5; 0; 0; 0; 1].
Definition uid_SID : bytes := [0; 0; 0; 9; 0; 0; 0; 6].
Definition uid_PSID : bytes := [0; 0; 0; 9; 0; 1; 0xFF; 1].
Definition uid_C_PIN_MSID : bytes := [0; 0; 0; 0x0B; 0; 0; 0x84; 2].
Definition mth_StartSession : bytes := [0; 0; 0; 0; 0; 0; 0xFF; 2].
Definition mth_Revert : bytes := [0; 0; 0; 6; 0; 0; 2; 2].
Definition mth_Get : bytes := [0; 0; 0; 6; 0; 0; 0; 0x16].
Definition mth_Authenticate : bytes := [0; 0; 0; 6; 0; 0; 0; 0x1C].

Definition method_call (target method : bytes) (args : bytes) : bytes :=
  [0xF8] ++ target ++ uid8 method ++ [0xF0] ++ args ++ [0xF1] ++ status_trailer.

(** Byte string atom of a credential; texts outside 1..2047 bytes follow C03. *)
Definition credential_atom (text : bytes) : bytes :=
  if blen text =? 0 then [0xA1; 0] else if blen text <? 2048 then encode (string_atom text) else [].

Definition start_payload (sp : bytes) (credential : option bytes) (auth : bytes) : bytes :=
  method_call (uid8 uid_SMUID) mth_StartSession
    ([0x81; 105] ++ uid8 sp ++ [1] ++
     match credential with
     | None => []
     | Some c => [0xF2; 0] ++ credential_atom c ++ [0xF3; 0xF2; 3] ++ auth ++ [0xF3]
     end).
Definition revert_payload : bytes := method_call (uid8 uid_AdminSP) mth_Revert [].
Definition get_payload (table : bytes) (startCol endCol : N) : bytes :=
  method_call table mth_Get
    ([0xF0; 0xF2; 3] ++ encode (number_atom startCol) ++ [0xF3; 0xF2; 4] ++ encode (number_atom endCol) ++ [0xF3; 0xF1]).

(** What reaches the drive for one framed command: [frame hsn tsn comId payload] is the 512-byte block. *)
Definition frame_header (hsn tsn comId : N) (payload : bytes) : bytes :=
  [0; 0; 0; 0] ++ be_bytes 2 comId ++ [0; 0] ++ zeros 8 ++ be_bytes 4 (pad4 (blen payload) + 36)
  ++ be_bytes 4 tsn ++ be_bytes 4 hsn ++ zeros 12 ++ be_bytes 4 (pad4 (blen payload) + 12)
  ++ zeros 8 ++ be_bytes 4 (blen payload).
Definition frame (hsn tsn comId : N) (payload : bytes) : bytes :=
  firstn 512 (frame_header hsn tsn comId payload ++ payload ++ zeros 512).

Definition authenticate_payload (authority : bytes) (credential : option bytes) : bytes :=
  method_call (uid8 uid_ThisSP) mth_Authenticate
    (authority ++ match credential with None => [] | Some c => [0xF2; 0] ++ credential_atom c ++ [0xF3] end).

(** The credential sent for a non-empty password: itself, or a framed PBKDF2 key of its first 32 bytes salted with the
    drive's serial number. *)
Definition credential_of (pbkdf2 : bytes -> bytes -> bytes) (serial : bytes) (nohash : bool) (password : bytes) : option bytes :=
  match password with
  | [] => None
  | _ => Some (if nohash then password else [0xD0; 32] ++ pbkdf2 (firstn 32 password) serial)
  end.

(** The session remembers the host and TPer session numbers [hv], [tv] that the drive assigned. *)
Definition numbers (s : session) (hv tv : N) : Prop :=
  s_hsn s = be_val (le_bytes 4 hv) /\ s_tsn s = be_val (le_bytes 4 tv).

(** Session calls other than Start. *)
Definition later_op (o : sop) : Prop := match o with SStart _ _ _ => False | _ => True end.
