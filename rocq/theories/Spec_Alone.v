(** Vocabulary of C155, C156: what a call on a drive handle hands back, and which calls and which ioctls of a program belong to one handle. *)
From Verif Require Import Base M_TcgDevice M_Ata M_DriveHandle M_SgDriver M_NvmeLinux M_LinuxFactory M_LinuxMachine.

(** Everything the caller gets back from one call: the outcome, the task file registers it passed in, the bytes of its buffer. *)
Definition reply : Type := hout * (option tf * bytes).
Definition reply_of (V : drv) (p : dh) (h : dhist) (o : hop) : reply :=
  (snd (snd (hstep V p h o)),
   match o with
   | HSec rw dma pr c b t => (None, snd (snd (security_command V p h rw dma pr c b t)))
   | HTask rw dma t d s => (Some (fst (snd (snd (ata_do_task_file_cmd V p h rw dma t d s)))), snd (snd (snd (ata_do_task_file_cmd V p h rw dma t d s))))
   | HLog n l r s => (None, fst (snd (nvme_get_log_page V p h n l r s)))
   | _ => (None, [])
   end).
(** The replies to a sequence of calls on a handle [p] with driver [V] that has made the driver calls [h]. *)
Fixpoint replies (V : drv) (p : dh) (h : dhist) (os : list hop) : list reply :=
  match os with [] => [] | o :: r => reply_of V p h o :: replies V (fst (snd (hstep V p h o))) (fst (hstep V p h o)) r end.

(** The calls of a program on its [i]-th handle. *)
Definition call_on (i : nat) (o : gop) : list hop := match o with GOn j c => if (j =? i)%nat then [c] else [] | _ => [] end.
Definition calls_on (i : nat) (ops : list gop) : list hop := flat_map (call_on i) ops.
(** What those calls hand back when the program runs on machine [M] from state [s]. *)
Definition driver_now (M : machine) (s : gstate) (x : ghandle) : drv := match gh_dev x with Some d => drv_at M (st_hist s) d | None => no_drv end.
Fixpoint replies_on (M : machine) (s : gstate) (i : nat) (ops : list gop) : list reply :=
  match ops with
  | [] => []
  | o :: rest => match nth_error (st_handles s) i with Some x => map (reply_of (driver_now M s x) (gh_dh x) []) (call_on i o) | None => [] end
                 ++ replies_on M (gstep M s o) i rest
  end.
(** The ioctls a step adds to the machine's history, and those that the calls on the [i]-th handle add. *)
Definition is_ioctl (e : gev) : bool := match e with GFile _ => false | _ => true end.
Definition ioctls_between (s s' : gstate) : ghist := filter is_ioctl (skipn (List.length (st_hist s)) (st_hist s')).
Fixpoint sent_on (M : machine) (s : gstate) (i : nat) (ops : list gop) : ghist :=
  match ops with
  | [] => []
  | o :: rest => match call_on i o with [] => [] | _ => ioctls_between s (gstep M s o) end ++ sent_on M (gstep M s o) i rest
  end.
(** A program from state [s] on. *)
Definition grun_from (M : machine) (s : gstate) (ops : list gop) : gstate := fold_left (gstep M) ops s.

(** The answers of system [S] are answers of machine [M], each to the same request (an ioctl with the same descriptor and the same
    contents); the buffer the SG driver identifies with has the address it had on [M]. *)
From Verif Require Import M_LinuxInfo M_LinuxSystem.
Definition answers_of (M : machine) (fd : N) (S : system) : Prop :=
  (forall h, exists g, w_open (sy_world S) h = m_open M g) /\ (forall h, exists g, w_basic (sy_world S) h = m_basic M g)
  /\ (forall h, exists g, w_ids (sy_world S) h = m_ids M g)
  /\ (forall h k c, exists g, sy_nvme S h (k ++ [c]) = m_nvme M (g ++ [GNvme c])) /\ (forall h k, exists g, sy_nvme_addr S h k = m_addr M g)
  /\ (forall h k c, exists g, sy_sg S h (k ++ [c]) = m_sg M (g ++ [GSg fd c])) /\ (forall h k, exists g, sy_sg_addr S h k = m_addr M g)
  /\ (forall h, exists g, sy_sg_addr S h [] = m_addr M (g ++ [GFile (LProbe 1 fd)])).

(** The file operations a step adds, and a system that answers a listing as the machine did. *)
Definition files_between (s s' : gstate) : lhist :=
  flat_map (fun e => match e with GFile e => [e] | _ => [] end) (skipn (List.length (st_hist s)) (st_hist s')).
Definition listing_answers_of (M : machine) (S : system) : Prop :=
  (forall h, exists g, w_dir (sy_world S) h = m_dir M g) /\ (forall h, exists g, w_mode (sy_world S) h = m_mode M g)
  /\ (forall h, exists g, w_open (sy_world S) h = m_open M g) /\ (forall h, exists g, w_basic (sy_world S) h = m_basic M g)
  /\ (forall h, exists g, w_ids (sy_world S) h = m_ids M g)
  /\ (forall h k c, exists g, sy_nvme S h (k ++ [c]) = m_nvme M (g ++ [GNvme c])) /\ (forall h k, exists g, sy_nvme_addr S h k = m_addr M g)
  /\ (forall h k c, exists g fd, sy_sg S h (k ++ [c]) = m_sg M (g ++ [GSg fd c])) /\ (forall h k, exists g, sy_sg_addr S h k = m_addr M g).
