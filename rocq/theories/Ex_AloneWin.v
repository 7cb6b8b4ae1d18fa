(** Non-vacuity for C157, C158: two drives used in turn on a Windows machine whose answers depend on everything done so far. *)
From Verif Require Import Base M_Buffer M_Struc M_Layouts M_Ata M_TcgDevice M_DriveHandle M_SgDriver M_Strings M_LinuxFactory M_LinuxMachine Spec_Alone M_WinPass M_WinNvme M_WinInfo M_WinFactory M_WinEnum
  M_WinMachine Spec_AloneWin Prop_AloneWin.

Definition exaw_is_open (e : xev) : bool := match e with XSys (WOpen _) => true | _ => false end.
(** Handles 3, 4, ...; only storage queries succeed, and return the number of actions on the whole machine so far in the first byte after the
    header. *)
Definition exaw : xsys := {|
  x_io := fun h => match last h XClassDevs with
                   | XSys (WIo c) => if wc_code c =? IOCTL_STORAGE_QUERY_PROPERTY
                                     then {| wa_err := 0; wa_out := le_bytes 4 48 ++ le_bytes 4 48 ++ zeros 40 ++ [N.of_nat (List.length h) mod 256]; wa_mem := []; wa_ret := 4144 |}
                                     else {| wa_err := 1; wa_out := []; wa_mem := []; wa_ret := 0 |}
                   | _ => {| wa_err := 1; wa_out := []; wa_mem := []; wa_ret := 0 |} end;
  x_open := fun h => inr (2 + N.of_nat (List.length (filter exaw_is_open h)));
  x_data := fun _ => 512; x_bounce := fun _ => 1024; x_class := fun _ => inr 1; x_devinfo := fun _ => false; x_iface := fun _ => 0; x_detail := fun _ => (1, ([], 0));
  x_mode := fun h => N.of_nat (List.length h); x_first := fun _ => inl (EMsg "none"); x_next := fun _ => inl (EMsg "none");
  x_names := fun _ => None; x_info := fun _ => None; x_type := fun _ => 3; x_vopen := fun _ => inl (EMsg "none"); x_text := fun us => us |}.
Definition exaw_before : list mop := [MOpen (str "one"); MOn 0 (HLog 1 2 false 8)].
Definition exaw_after : list mop :=
  [MOn 1 (HLog 1 2 false 8); MOn 0 (HLog 1 2 false 8); MOpen (str "three"); MEnum 5; MOn 1 (HLog 1 2 false 8); MVolumes 5; MOn 0 HClose; MOn 1 HClose; MOn 1 (HLog 1 2 false 8)].
Definition exaw_opened : mstate := mstep exaw (mrun exaw exaw_before) (MOpen (str "two")).
Example exaw_succeeds : List.length (ms_handles exaw_opened) = S (List.length (ms_handles (mrun exaw exaw_before))).
Proof. vm_compute. reflexivity. Qed.
Example exaw_calls : mcalls_on 1 exaw_after = [HLog 1 2 false 8; HLog 1 2 false 8; HClose; HLog 1 2 false 8].
Proof. reflexivity. Qed.
(** The handle's replies: each log page carries what else happened on the machine meanwhile; after Close nothing is returned. *)
Definition exaw_data (r : reply) : bytes := firstn 1 (snd (snd r)).
Example exaw_replies : map exaw_data (mreplies_on exaw exaw_opened 1 exaw_after) = [[18]; [31]; []; []].
Proof. vm_compute. reflexivity. Qed.
(** Two queries and one CloseHandle. *)
Example exaw_done : List.length (mdone_on exaw exaw_opened 1 exaw_after) = 3%nat.
Proof. vm_compute. reflexivity. Qed.

(** The system C157 speaks of cannot always be the machine itself without the rest of the program. *)
Theorem C157_same_machine_refuted : ~ (forall X path ops, let s := mrun X [MOpen path] in List.length (ms_handles s) = 1%nat ->
  mreplies_on X s 0 ops = mreplies_on X s 0 (map (MOn 0) (mcalls_on 0 ops))).
Proof.
  intros H. specialize (H exaw (str "one") [MEnum 5; MOn 0 (HLog 1 2 false 8)]). cbv zeta in H.
  assert (L : List.length (ms_handles (mrun exaw [MOpen (str "one")])) = 1%nat) by (vm_compute; reflexivity). specialize (H L).
  apply (f_equal (map exaw_data)) in H. vm_compute in H. discriminate H.
Qed.
Print Assumptions C157_same_machine_refuted.

(** A path with a NUL is refused (C157_refused_as_if_alone), without any action. *)
Example exaw_refused : let s := mrun exaw exaw_before in
  List.length (ms_handles (mstep exaw s (MOpen [0]))) = List.length (ms_handles s) /\ snd (x_open_by_path exaw (ms_hist s) [0]) = Err bad_path.
Proof. vm_compute. split; reflexivity. Qed.
(** EnumDrives and EnumVolumes in the middle of that program (C158). *)
Example exaw_lists : snd (win_enum_drives exaw 5 (ms_hist exaw_opened)) = Ok [] /\ snd (win_enum_volumes exaw 5 (ms_hist exaw_opened)) = Err (EMsg "none")
  /\ done_between exaw_opened (mstep exaw exaw_opened (MVolumes 5)) = [XErrorMode 1; XFindFirst; XErrorMode (N.of_nat (List.length (ms_hist exaw_opened)) + 1)].
Proof. vm_compute. repeat split; reflexivity. Qed.
