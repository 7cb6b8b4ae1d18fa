(** Specification vocabulary for drive handles.  From the model it uses only the record types of the public API. *)
From Verif Require Import Base Spec_Buffer M_Ata M_TcgDevice M_Struc M_DriveHandle.

(** ---- text fields ---- *)
Definition blank (b : N) : Prop := In b [0x20 (* space *); 0x09 (* tab *); 0x0d (* CR *); 0x0a (* LF *); 0x00].

(** [t] is [s] without its leading and trailing blanks. *)
Definition trimmed (s t : bytes) : Prop :=
  exists a b, s = a ++ t ++ b /\ Forall blank a /\ Forall blank b
  /\ (forall x t', t = x :: t' -> ~ blank x) /\ (forall x t', t = t' ++ [x] -> ~ blank x).

(** [o] is [l] with the two bytes of each 16-bit word exchanged. *)
Definition word_swapped (l o : bytes) : Prop :=
  List.length o = List.length l /\ forall i, (i < List.length l)%nat -> nth_error o i = nth_error l (partner i).

(** 16-bit word [n] of an ATA block (little-endian). *)
Definition word (n : nat) (b : bytes) : N := le_val (slice (2 * n) 2 b).

(** ---- Level 0 discovery (TCG core spec 3.3.6) ---- *)
Record feature := { ft_code : N; ft_version : N; ft_body : bytes }.
Definition feature_ok (f : feature) : Prop := ft_code f < 65536 /\ blen (ft_body f) < 256.
Definition descriptor (f : feature) : bytes :=
  be_bytes 2 (ft_code f) ++ [ft_version f; blen (ft_body f)] ++ ft_body f.
Definition descriptors (fs : list feature) : bytes := concat (map descriptor fs).
Definition listed (code : N) (fs : list feature) : bool := existsb (fun f => ft_code f =? code) fs.

(** Bytes of the last descriptor with the given code. *)
Fixpoint last_listed (code : N) (fs : list feature) : option bytes :=
  match fs with
  | [] => None
  | f :: fs' => match last_listed code fs' with
                | Some d => Some d
                | None => if ft_code f =? code then Some (descriptor f) else None
                end
  end.

(** The discovery record [t'] is [t] plus the features [fs]. *)
Definition adds_features (t t' : level0) (fs : list feature) : Prop :=
  l_tper t' = (l_tper t || listed 0x0001 fs)%bool /\ l_locking t' = (l_locking t || listed 0x0002 fs)%bool /\
  l_geometry t' = (l_geometry t || listed 0x0003 fs)%bool /\ l_enterprise t' = (l_enterprise t || listed 0x0100 fs)%bool /\
  l_opal1 t' = (l_opal1 t || listed 0x0200 fs)%bool /\ l_single_user t' = (l_single_user t || listed 0x0201 fs)%bool /\
  l_data_store t' = (l_data_store t || listed 0x0202 fs)%bool /\ l_opal2 t' = (l_opal2 t || listed 0x0203 fs)%bool /\
  forall code, raw_lookup (l_raw t') code =
    match last_listed code fs with Some d => Some d | None => raw_lookup (l_raw t) code end.

(** Fields of the drive information other than the discovery results. *)
Definition same_identity (i i' : info) : Prop :=
  i_path i' = i_path i /\ i_model i' = i_model i /\ i_serial i' = i_serial i /\ i_fw i' = i_fw i /\
  i_raw_serial i' = i_raw_serial i /\ i_smart i' = i_smart i /\ i_ata i' = i_ata i /\ i_ata_raw i' = i_ata_raw i /\
  i_nvme i' = i_nvme i /\ i_nvme_raw i' = i_nvme_raw i /\ i_ssd i' = i_ssd i /\ i_weight i' = i_weight i.

(** Offsets at which a walk over descriptors starting at 32 looks for one, given the length bound [L]:
    each descriptor occupies 4 bytes plus the value of its fourth byte. *)
Inductive visited (buf : bytes) (L : nat) : nat -> Prop :=
| visited_start : (32 < L)%nat -> visited buf L 32
| visited_next : forall o n, visited buf L o -> nth_error buf (o + 3) = Some n ->
    (o + 4 + N.to_nat n < L)%nat -> visited buf L (o + 4 + N.to_nat n).
(** Some visited descriptor does not fit the buffer. *)
Definition runs_over (buf : bytes) (L : nat) : Prop :=
  exists o, visited buf L o /\
    match nth_error buf (o + 3) with Some n => (List.length buf < o + 4 + N.to_nat n)%nat | None => True end.

(** ---- SECURITY SEND / RECEIVE and TRUSTED SEND / RECEIVE ---- *)
(** ATA8-ACS TRUSTED SEND/RECEIVE: protocol in Feature, transfer length in blocks in LBA(7:0):Count, ComID in LBA(23:8). *)
Definition trusted_blocks (t : tf) : N := g_nsect (t_lob t) + 256 * g_lbal (t_lob t).
Definition trusted_com_id (t : tf) : N := g_lbam (t_lob t) + 256 * g_lbah (t_lob t).
Definition trusted_opcode (rw dma : bool) : N :=
  match rw, dma with false, false => 0x5c | false, true => 0x5d | true, false => 0x5e | true, true => 0x5f end.

(** The history [h'] extends [h] by exactly the calls [cs]. *)
Definition extends (h h' : dhist) (cs : list dcall) : Prop := h' = h ++ cs.

Definition closes (h : dhist) : nat := List.length (filter (fun c => match c with CClose => true | _ => false end) h).
Definition is_close (o : hop) : bool := match o with HClose => true | _ => false end.

(** Answers of a handle without driver. *)
Definition dead_answer (o : hop) (r : hout) : Prop :=
  match o with
  | HSec _ _ _ _ _ _ => r = OutErr (Some (EMsg "not supported"))
  | HTask _ _ _ _ _ => r = OutErr (Some ENotSupportThisDriver)
  | HLog _ _ _ _ => r = OutErr (Some ENotSupportThisDriver)
  | HType => r = OutVal Panic
  | HName => r = OutName Panic
  | HDiscovery => r = OutRes (Err (EMsg "not supported"))
  | HInit => r = OutRes (Ok tt)
  | HClose => r = OutNone
  end.

(** ---- Get Log Page (NVMe 1.3, 5.14): dword counts are zero-based, NUMDL in CDW10 31:16, NUMDU in CDW11 15:0,
    RAE in CDW10 bit 15, LSP in CDW10 11:8, LID in CDW10 7:0, LSI in CDW11 31:16. ---- *)
Definition bits (hi lo x : N) : N := (x / 2 ^ lo) mod 2 ^ (hi - lo + 1).

(** A command [mk data] issued at most [k] times against driver [V] starting with history [h] and buffer [d]: the first
    success ends it, every attempt works on the buffer the previous one left; [r] is the last answer. *)
Inductive attempts (V : drv) (mk : bytes -> admin_cmd) : nat -> dhist -> bytes -> dhist -> bytes -> option err -> Prop :=
| att_ok : forall k h d new, v_io V (h ++ [CAdmin (mk d)]) = (None, new) ->
    attempts V mk (S k) h d (h ++ [CAdmin (mk d)]) (fill d new) None
| att_last : forall h d e new, v_io V (h ++ [CAdmin (mk d)]) = (Some e, new) ->
    attempts V mk 1 h d (h ++ [CAdmin (mk d)]) (fill d new) (Some e)
| att_again : forall k h d e new h' d' r, v_io V (h ++ [CAdmin (mk d)]) = (Some e, new) ->
    attempts V mk (S k) (h ++ [CAdmin (mk d)]) (fill d new) h' d' r ->
    attempts V mk (S (S k)) h d h' d' r.
