(** Property theorem C163: the work of one call. *)
From Verif Require Import Base M_DriveHandle M_SgDriver M_NvmeLinux M_LinuxFactory M_LinuxVolume M_LinuxMachine Spec_Work P_Work P_Work2.

(** C163: whatever the machine answers, in whatever state the program is: one call sends at most [command_limit] commands to drives and
    performs at most [action_limit] actions altogether - it cannot be kept busy by a drive that misbehaves.  Opening: 8 commands; listing
    the drives: 8 per name; SecurityCommand and TcgDiscovery0: 1 on NVMe, 4 on SCSI; a task file command: 2; a log page: one per 4096
    bytes begun. *)
Theorem C163_one_call : forall M ops o, let s := grun M ops in
  exists es, st_hist (gstep M s o) = st_hist s ++ es /\ (commands es <= command_limit M s o)%nat /\ (List.length es <= action_limit M s o)%nat.
Proof. intros M ops o s. exact (proj1 (gstep_within M s o (grun_kinded M ops))). Qed.
Print Assumptions C163_one_call.

(** So the commands of a whole program are bounded by the sum over its calls. *)
Fixpoint program_limit (M : machine) (s : gstate) (ops : list gop) : nat :=
  match ops with [] => 0 | o :: r => command_limit M s o + program_limit M (gstep M s o) r end.
Theorem C163_program : forall M ops, (commands (st_hist (grun M ops)) <= program_limit M {| st_hist := []; st_handles := [] |} ops)%nat.
Proof.
  intros M ops. unfold grun.
  assert (G : forall s, Forall kinded (st_handles s) -> (commands (st_hist (fold_left (gstep M) ops s)) <= commands (st_hist s) + program_limit M s ops)%nat).
  { induction ops as [|o ops IH]; intros s H; cbn [fold_left program_limit]; [lia|]. destruct (gstep_within M s o H) as [(es & E & L & _) H1].
    specialize (IH (gstep M s o) H1). rewrite E, commands_app in IH. lia. }
  specialize (G {| st_hist := []; st_handles := [] |} ltac:(constructor)). exact G.
Qed.
Print Assumptions C163_program.
