(** C186: over Windows' SCSI, ATA and storage-query drivers, a drive that answers only what it was told is never opened, read or reverted. *)
From Verif Require Import Base M_Buffer M_Struc M_Ata M_TcgToken M_TcgCommand M_TcgDevice M_TcgSession M_DriveHandle M_Cdb M_SgDriver M_Strings M_LinuxFactory M_TcgOnDrive
  M_WinPass M_WinNvme M_WinInfo M_WinFactory
  Spec_Drive P_DriveHandle P_Identity Prop_Drive Spec_LinuxFactory P_LinuxFactory Spec_Sg P_Sg Prop_Sg Spec_WinPass Spec_WinNvme P_WinPass P_WinNvme Prop_WinPass Prop_WinNvme Prop_WinDrive
  Prop_WinInfo Spec_WinFactory P_WinFactory Prop_WinFactory
  Spec_Tcg Spec_TcgCommand Spec_TcgClient Spec_TcgSession P_TcgDevice P_TcgSession Spec_TcgOnDrive Prop_TcgDevice P_TcgOnDrive P_TcgOnWin Prop_TcgOnWin Spec_LinuxSystem P_LinuxSystem Prop_LinuxTcg
  Spec_WinSystem P_WinSystem Prop_WinSystem Prop_WinTcg M_TcgTables M_TcgProgram Spec_OneSession P_OneSession Prop_TcgEnds Spec_Deaf P_Deaf.

(** C186.  [hd] is the handle of a drive behind the SCSI, ATA or storage-query driver, [com] its ComID.  The drive sends a packet only to a host that
    has given it one; until then it says that it has nothing to send.  Then in any program of calls - sessions opened, authenticated and closed, any
    number of them at once, tables read, MSID passwords asked for, reverts, with any credential - every call that needs the drive returns an error,
    and the drive is never given anything but zeros. *)
Theorem C186_nothing_succeeds : forall S A d h0 p g clock kdf heap fuel dev com prog ss h' rs,
  wd_kind d <> KNvmeWin -> over_win d p -> addr_ok A -> wf_system S ->
  (forall j, heap j < 256) -> (forall y s, List.length (kdf y s) = 32%nat /\ wf (kdf y s)) ->
  is_any_ssc dev = true -> get_base_com_id dev = Ok com -> com < 2 ^ 16 ->
  answers_only_packets S (wd_handle d) com (win_replay S A d h0 g) -> Forall tcg_call prog ->
  trun (drive_env (win_drv S A d h0) p g clock kdf heap fuel) dev [] [] prog = (ss, h', rs) ->
  Forall2 (fun c r => needs_drive c -> unsuccessful r) prog rs
  /\ exists cs, win_replay S A d h0 (driver_calls (win_drv S A d h0) p g h') = win_replay S A d h0 g ++ map WIo cs
                /\ Forall (fun c => gives_zeros c \/ asks (wd_handle d) com c) cs.
Proof.
  intros S A d h0 p g clock kdf heap fuel dev com prog ss h' rs Hk Hp HA HS Hh Hkdf Hs Hc Hc16 Q L H.
  destruct (run_mute com (drive_env (win_drv S A d h0) p g clock kdf heap fuel) dev prog [] [] ss h' rs) as [O F]; auto.
  - apply drive_env_ok; auto using win_bytes_out.
  - now apply win_mute.
  - constructor.
  - split; [exact F|]. exact (replay_mute S A d h0 p g com h' Hk Hp HA Hc16 Q O).
Qed.
Print Assumptions C186_nothing_succeeds.

(** C186 from the device handle: what [NewWindowsDriveFactory().OpenByHandle] gave. *)
Theorem C186_from_handle : forall S A h hd path kind d g h1 x d0 h0 cs0 clock kdf heap fuel dev com prog ss h' rs,
  kind <> KNvmeWin -> accepted_by S A h hd kind d g -> win_open_by_handle S A h hd path = (h1, Ok x) -> f_drv x = Some (d0, h0, cs0) ->
  addr_ok A -> wf_system S -> (forall j, heap j < 256) -> (forall y s, List.length (kdf y s) = 32%nat /\ wf (kdf y s)) ->
  is_any_ssc dev = true -> get_base_com_id dev = Ok com -> com < 2 ^ 16 ->
  answers_only_packets S hd com h1 -> Forall tcg_call prog ->
  trun (drive_env (win_drv S A d0 h0) (f_dh x) cs0 clock kdf heap fuel) dev [] [] prog = (ss, h', rs) ->
  Forall2 (fun c r => needs_drive c -> unsuccessful r) prog rs
  /\ exists cs, win_replay S A d0 h0 (driver_calls (win_drv S A d0 h0) (f_dh x) cs0 h') = h1 ++ map WIo cs
                /\ Forall (fun c => gives_zeros c \/ asks hd com c) cs.
Proof.
  intros S A h hd path kind d g h1 x d0 h0 cs0 clock kdf heap fuel dev com prog ss h' rs Hk Ac Ho Hd HA HS Hh Hkdf Hs Hc Hc16 Q L H.
  destruct (open_accepted _ _ _ _ _ _ _ _ _ _ Ac Ho) as (K1 & K2 & _).
  destruct (opened_replay S A h hd path kind d g h1 x Ac Ho) as (cs1 & (D1 & D2 & _) & Er).
  rewrite D2 in Hd. injection Hd as <- <- <-. rewrite <- K2 in *. rewrite Er in *.
  apply (C186_nothing_succeeds S A d g (f_dh x) ([CType; CName] ++ cs1) clock kdf heap fuel dev com prog ss h' rs); auto. congruence.
Qed.
Print Assumptions C186_from_handle.

(** With a clock that runs (at least as fast as the library sleeps) no call polls for ever, so what a call that needs the drive returns is an error. *)
Lemma step_ends E d com ss h c ss' h' r : env_ok E -> timed E -> is_any_ssc d = true -> get_base_com_id d = Ok com -> tcg_call c ->
  tstep E d ss h c = (ss', h', r) -> r <> Fuel.
Proof.
  intros HE HT Hs Hc [L L2] H. destruct (C135_operations_end E d com HE HT Hs Hc) as (T1 & T2 & T3 & T4 & T5).
  destruct c as [|i o|i table a b| |pw isPsid isAdm|t]; cbn [tstep] in H.
  - injection H as _ _ <-. discriminate.
  - destruct (nth_error ss i) as [s|]; [|injection H as _ _ <-; discriminate]. destruct (sstep E d (s, h) o) as [[s' h2] r2] eqn:Es. injection H as _ _ <-.
    destruct o as [sp ch a|au ch|x|b| |ms|]; cbn [sstep] in Es; try (injection Es as _ _ <-; discriminate).
    + exact (proj2 (T2 _ _ _ _ _ _ _ _ Es)).
    + destruct (authenticate E d s au ch h) as [h3 r3] eqn:Ea. injection Es as _ _ <-. exact (proj2 (T3 _ _ _ _ _ _ Ea)).
    + contradiction.
    + unfold session_close in Es. destruct (s_autoclose s && s_opened s); injection Es as _ _ <-; discriminate.
  - destruct (nth_error ss i) as [s|]; [|injection H as _ _ <-; discriminate].
    destruct (device_get_table E d d s table a b h) as [h3 r3] eqn:Eg. injection H as _ _ <-.
    assert (X : device_get_table E d d s table a b h = send_command E d s (get_table_command table a b) h)
      by (unfold device_get_table; destruct (opal_kind d Hs) as [-> | ->]; reflexivity).
    rewrite X in Eg. pose proof (proj2 (T1 _ _ _ _ _ Eg)) as F. destruct r3 as [[o [e|]]|e| |]; cbn [only_err]; congruence.
  - destruct (get_default_password E d h) as [h2 r2] eqn:Ep. injection H as _ _ <-. pose proof (proj2 (T5 _ _ _ Ep)) as F. destruct r2; cbn [result_of]; congruence.
  - destruct (revert_tper E d pw isPsid isAdm h) as [h2 r2] eqn:Er. injection H as _ _ <-. exact (proj2 (T4 _ _ _ _ _ _ Er)).
  - contradiction.
Qed.
Lemma run_ends E d com prog : env_ok E -> timed E -> is_any_ssc d = true -> get_base_com_id d = Ok com -> Forall tcg_call prog ->
  forall ss h ss' h' rs, trun E d ss h prog = (ss', h', rs) -> Forall (fun r => r <> Fuel) rs.
Proof.
  intros HE HT Hs Hc L. induction L as [|c prog Lc _ IH]; intros ss h ss' h' rs H; cbn [trun] in H; [injection H as _ _ <-; constructor|].
  destruct (tstep E d ss h c) as [[ss1 h1] r] eqn:E1. destruct (trun E d ss1 h1 prog) as [[ss2 h2] rs2] eqn:E2. injection H as _ _ <-.
  constructor; [exact (step_ends E d com ss h c ss1 h1 r HE HT Hs Hc Lc E1)|exact (IH _ _ _ _ _ E2)].
Qed.
Theorem C186_errors : forall S A d h0 p g clock kdf heap fuel dev com prog ss h' rs,
  wd_kind d <> KNvmeWin -> over_win d p -> addr_ok A -> wf_system S ->
  (forall j, heap j < 256) -> (forall y s, List.length (kdf y s) = 32%nat /\ wf (kdf y s)) ->
  is_any_ssc dev = true -> get_base_com_id dev = Ok com -> com < 2 ^ 16 ->
  answers_only_packets S (wd_handle d) com (win_replay S A d h0 g) -> Forall tcg_call prog ->
  let E := drive_env (win_drv S A d h0) p g clock kdf heap fuel in
  timed E -> trun E dev [] [] prog = (ss, h', rs) ->
  Forall2 (fun c r => needs_drive c -> exists e, r = Err e) prog rs.
Proof.
  intros S A d h0 p g clock kdf heap fuel dev com prog ss h' rs Hk Hp HA HS Hh Hkdf Hs Hc Hc16 Q L E HT H.
  assert (HE : env_ok E) by (apply drive_env_ok; auto using win_bytes_out).
  pose proof (run_ends E dev com prog HE HT Hs Hc L [] [] ss h' rs H) as N1.
  destruct (C186_nothing_succeeds S A d h0 p g clock kdf heap fuel dev com prog ss h' rs Hk Hp HA HS Hh Hkdf Hs Hc Hc16 Q L H) as [F _].
  clear - F N1. induction F as [|c r prog rs H _ IH]; [constructor|]. inversion N1; subst. constructor; [|now apply IH].
  intros Hn. destruct (H Hn) as [X| ->]; [exact X|contradiction].
Qed.
Print Assumptions C186_errors.
