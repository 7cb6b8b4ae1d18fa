(** What the texts of errors say, written without the model of fmt.Sprintf. *)
From Verif Require Import Base M_Buffer M_Strings M_Ata M_TcgDevice M_DriveHandle M_SgDriver M_SgHandle M_NvmeLinux M_LinuxInfo M_LinuxFactory.
From Verif Require Import Spec_LinuxVolume Spec_WinInfo Spec_WinNvme M_WinPass M_WinNvme M_ErrorText.

(** Hexadecimal numerals as the library writes them: digits 0-9 and a-f. *)
Definition small_hex (t : bytes) : Prop := Forall (fun c => 48 <= c <= 57 \/ 97 <= c <= 102) t.
(** a byte, always two digits *)
Definition byte_text (b : N) (t : bytes) : Prop := List.length t = 2%nat /\ small_hex t /\ reads16 t b.
(** a number without leading zeros *)
Definition hex_text (n : N) (t : bytes) : Prop := t <> [] /\ small_hex t /\ reads16 t n /\ (forall r, t = 48 :: r -> r = []).
(** a decimal number without leading zeros *)
Definition decimal_text (n : N) (t : bytes) : Prop := numeral t /\ decimal t = n.

(** [title]status, [label]: 0xkey, ASC: 0xasc, ASCQ: 0xascq *)
Definition scsi_report (title label : string) (status key asc ascq : N) (t : bytes) : Prop :=
  exists a b c d, byte_text status a /\ byte_text key b /\ byte_text asc c /\ byte_text ascq d /\
    t = str title ++ a ++ str ", " ++ str label ++ str ": 0x" ++ b ++ str ", ASC: 0x" ++ c ++ str ", ASCQ: 0x" ++ d.
Definition ata_report (status : N) (t : bytes) : Prop := exists a, byte_text status a /\ t = str "ATA Status: " ++ a.

(** A handle's driver, and which of the library's drivers it is. *)
Inductive driver_of : kind -> drv -> Prop :=
| of_sg : forall K A kh identity, driver_of OnSg (sg_drv K A kh identity)
| of_nvme : forall K fd A kh identity, driver_of OnNvme (nv_drv K fd A kh identity)
| of_win : forall S A d h, driver_of (OnWin (wd_kind d)) (win_drv S A d h).
(** The interfaces each driver implements. *)
Definition driver_type (k : kind) : dtype :=
  match k with
  | OnSg => {| is_ata := true; is_nvme := false |}
  | OnNvme => {| is_ata := false; is_nvme := true |}
  | OnWin w => win_dtype w
  end.

(** The error a call returned. *)
Definition error_in (o : hout) : option err :=
  match o with OutErr e => e | OutRes (Err e) => Some e | OutVal (Err e) => Some e | OutName (Err e) => Some e | _ => None end.

(** What the message of an error that carries a device status says: [st] is its DriverStatus, [si] its SenseData; byte 2 holds the
    sense key in its lower half, bytes 12 and 13 the additional sense code and its qualifier. *)
Definition says (k : kind) (st : N) (si : bytes) (t : bytes) : Prop :=
  match k with
  | OnSg => scsi_report "SCSI status: " "Sense key" st (nth 2 si 0 mod 16) (nth 12 si 0) (nth 13 si 0) t
  | OnWin KScsi => scsi_report "SCSI Status: " "Sense Key" st (nth 2 si 0 mod 16) (nth 12 si 0) (nth 13 si 0) t
  | OnWin KAta => ata_report st t /\ si = []
  | _ => False
  end.

(** A chain of causes, outermost first: the messages, then the text of the innermost error. *)
Inductive chain : gerr -> list bytes -> bytes -> Prop :=
| chain_leaf : forall t, chain (Leaf t) [] t
| chain_more : forall e c ms t m, cause e = Some c -> chain c ms t -> gtext e = m ++ str ": " ++ gtext c -> chain e (m :: ms) t.
Fixpoint joined (ms : list bytes) (t : bytes) : bytes :=
  match ms with [] => t | m :: r => m ++ str ": " ++ joined r t end.
