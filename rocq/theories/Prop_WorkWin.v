(** Property theorems C164, C165: the work of one call on Windows. *)
From Verif Require Import Base M_DriveHandle M_LinuxFactory M_LinuxVolume M_LinuxMachine M_WinPass M_WinNvme M_WinFactory M_WinEnum M_WinMachine Spec_WorkWin P_WorkWin P_WorkWin2.
Local Open Scope nat_scope.

(** C164: whatever the machine answers, in whatever state the program is: one call makes at most [request_limit] DeviceIoControl requests
    and performs at most [waction_limit] actions altogether. *)
Theorem C164_one_call : forall X ops o, let s := mrun X ops in
  exists es, ms_hist (mstep X s o) = ms_hist s ++ es /\ requests es <= request_limit s o es /\ List.length es <= waction_limit s o es.
Proof. intros X ops o s. exact (proj1 (mstep_within X s o (mrun_kinded X ops))). Qed.
Print Assumptions C164_one_call.

(** C165: an enumeration ends when the system's lists do.  On a system with at most [n] devices EnumDrives looks at no more than [n], and
    its result and its actions are the same however long a further enumeration is allowed to be ([fuel]); so are EnumVolumes' on a system
    whose search ends after [n] more volumes, of which it looks at no more than [n + 1]. *)
Theorem C165_drives : forall X n h fuel, at_most_devices X n -> n < fuel ->
  win_enum_drives X fuel h = win_enum_drives X (S n) h
  /\ exists es, fst (win_enum_drives X fuel h) = h ++ es /\ devices_found es <= n /\ requests es <= 13 * n /\ List.length es <= 3 + 21 * n.
Proof.
  intros X n h fuel B L.
  assert (Q : win_enum_drives X fuel h = win_enum_drives X (S n) h).
  { unfold win_enum_drives. destruct (x_class X _) as [e|d]; [reflexivity|]. rewrite (devices_end X n d fuel B (S n)) by lia. reflexivity. }
  split; [exact Q|]. destruct (xenum_goes X fuel h) as (es & E & L1 & L2). exists es. split; [exact E|].
  assert (F : devices_found es <= n).
  { unfold win_enum_drives in E. cbv zeta in E. destruct (x_class X (h ++ [XClassDevs])) as [e|d].
    - cbn [fst] in E. apply app_inv_head in E. subst es. cbn. lia.
    - destruct (devices_few X n d fuel B (h ++ [XClassDevs]) 0 (zeros 1024) [] ltac:(lia)) as (e1 & E1 & F1).
      destruct (enum_devices X fuel (h ++ [XClassDevs]) d 0 (zeros 1024) []) as [h2 [xs r]]. cbn [fst] in E1.
      destruct (xclose_all_goes (rev xs) h2) as (e2 & E2 & _ & _ & F2). rewrite E2 in E.
      destruct r; cbn [fst] in E; rewrite E1, <- !app_assoc in E; apply app_inv_head in E; subst es; rewrite ?devices_app; cbn [devices_found filter List.length] in *; change (devices_found [XClassDevs]) with 0; change (devices_found [XDestroy d]) with 0; lia. }
  split; [exact F|]. lia.
Qed.
Print Assumptions C165_drives.
Theorem C165_volumes : forall X n h fuel, at_most_volumes X (h ++ [XErrorMode 1; XFindFirst]) n -> n < fuel ->
  win_enum_volumes X fuel h = win_enum_volumes X (S n) h
  /\ exists es, fst (win_enum_volumes X fuel h) = h ++ es /\ volumes_found es <= S n /\ requests es <= 2 * S n /\ List.length es <= 4 + 8 * S n.
Proof.
  intros X n h fuel B L.
  assert (Q : win_enum_volumes X fuel h = win_enum_volumes X (S n) h).
  { unfold win_enum_volumes. cbv zeta. destruct (x_first X _) as [e|[f us]]; [reflexivity|].
    assert (E : (h ++ [XErrorMode 1]) ++ [XFindFirst] = (h ++ [XErrorMode 1; XFindFirst]) ++ []) by (rewrite app_nil_r, <- app_assoc; reflexivity). rewrite E.
    rewrite (volumes_end X n _ f fuel B (S n) []) by (cbn; lia). reflexivity. }
  split; [exact Q|]. rewrite Q. destruct (xvolumes_goes X (S n) h) as (es & E & L1 & L2 & F). exists es. split; [exact E|]. split; [exact F|]. lia.
Qed.
Print Assumptions C165_volumes.
