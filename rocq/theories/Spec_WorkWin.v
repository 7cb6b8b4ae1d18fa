(** Vocabulary of C164, C165: how much a call may do on Windows. *)
From Verif Require Import Base M_DriveHandle M_WinPass M_WinNvme M_WinFactory M_WinEnum M_WinMachine.

(** Requests: the DeviceIoControl calls. *)
Definition is_request (e : xev) : bool := match e with XSys (WIo _) => true | _ => false end.
Definition requests (h : xhist) : nat := List.length (filter is_request h).
(** How many devices the enumeration found (each is asked for its interface), and how many volumes. *)
Definition devices_found (h : xhist) : nat := List.length (filter (fun e => match e with XInterface _ _ => true | _ => false end) h).
Definition volumes_found (h : xhist) : nat := List.length (filter (fun e => match e with XPathNames _ => true | _ => false end) h).
Definition nexts_asked (h : xhist) : nat := List.length (filter (fun e => match e with XFindNext _ => true | _ => false end) h).

(** At most so many requests for one call on a drive handle with this driver. *)
Definition wcall_limit (k : wkind) (o : hop) : nat :=
  match o, k with
  | (HClose | HType | HName), _ => 0
  | (HInit | HDiscovery | HSec _ _ _ _ _ _), KNvmeWin => 1
  | (HInit | HDiscovery | HSec _ _ _ _ _ _), KScsi => 4
  | (HInit | HDiscovery | HSec _ _ _ _ _ _), (KWinNvme | KAta) => 2
  | HTask _ _ _ _ _, (KNvmeWin | KWinNvme) => 0
  | HTask _ _ _ _ _, (KScsi | KAta) => 2
  | HLog _ _ _ _, KWinNvme => 1
  | HLog _ _ _ _, _ => 0
  end.
(** Requests, and all actions together, of one call of a program in state [s]; [es] is what the call did, from which only the numbers of
    devices and volumes found are used. *)
Definition request_limit (s : mstate) (o : mop) (es : xhist) : nat :=
  match o with
  | MOpen _ => 13
  | MEnum _ => 13 * devices_found es
  | MVolumes _ => 2 * volumes_found es
  | MOn i c => match nth_error (ms_handles s) i with
               | Some x => match mh_dev x with Some d => wcall_limit (wd_kind d) c | None => 0 end
               | None => 0
               end
  end.
Definition waction_limit (s : mstate) (o : mop) (es : xhist) : nat :=
  match o with
  | MOpen _ => 16
  | MEnum _ => 3 + 21 * devices_found es
  | MVolumes _ => 4 + 8 * volumes_found es
  | MOn _ HClose => 1
  | MOn _ _ => request_limit s o es
  end.

(** The system has at most [n] devices: SetupDiEnumDeviceInfo fails for every index from [n] on. *)
Definition at_most_devices (X : xsys) (n : nat) : Prop := forall h d i, (n <= i)%nat -> x_devinfo X (h ++ [XDevInfo d i]) = false.
(** A search begun after [h] finds at most [n] volumes besides the first: its FindNextVolume fails after [n] successes. *)
Definition at_most_volumes (X : xsys) (h : xhist) (n : nat) : Prop :=
  forall es f, nexts_asked es = n -> exists e, x_next X (h ++ es ++ [XFindNext f]) = inl e.
