(** Vocabulary of C188: a drive whose answers do not depend on what is done through other descriptors. *)
From Verif Require Import Base M_DriveHandle M_SgDriver M_NvmeLinux M_LinuxFactory M_LinuxMachine Spec_LinuxMachine Spec_Alone.

(** What was done on descriptor [fd]. *)
Definition done_on (fd : N) (g : ghist) : ghist := filter (fun e => match acts_on e with Some f => f =? fd | None => false end) g.
(** After history [g0], the answers to ioctls on [fd] - and the addresses of the buffers handed over - depend only on what was done on [fd]
    since. *)
Definition undisturbed (M : machine) (g0 : ghist) (fd : N) : Prop := forall a b, done_on fd a = done_on fd b ->
  (forall c, nc_fd c = fd -> m_nvme M (g0 ++ a ++ [GNvme c]) = m_nvme M (g0 ++ b ++ [GNvme c]))
  /\ (forall c, m_sg M (g0 ++ a ++ [GSg fd c]) = m_sg M (g0 ++ b ++ [GSg fd c]))
  /\ m_addr M (g0 ++ a) = m_addr M (g0 ++ b).
(** In the rest of the program, calls not made on the [i]-th handle do nothing on [fd]. *)
Fixpoint elsewhere (M : machine) (s : gstate) (i : nat) (fd : N) (ops : list gop) : Prop :=
  match ops with
  | [] => True
  | o :: rest => (call_on i o = [] -> exists es, st_hist (gstep M s o) = st_hist s ++ es /\ done_on fd es = []) /\ elsewhere M (gstep M s o) i fd rest
  end.
