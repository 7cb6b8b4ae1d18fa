(** Property theorem C131: from an open device handle to a reverted drive, on a complete Windows system. *)
From Verif Require Import Base M_Buffer M_Struc M_Ata M_TcgToken M_TcgCommand M_TcgDevice M_TcgSession M_DriveHandle M_Cdb M_SgDriver M_Strings M_LinuxFactory M_TcgOnDrive
  M_WinPass M_WinNvme M_WinInfo M_WinFactory
  Spec_Drive P_DriveHandle P_Identity Prop_Drive Spec_LinuxFactory P_LinuxFactory Spec_Sg P_Sg Prop_Sg Spec_WinPass Spec_WinNvme P_WinPass P_WinNvme Prop_WinPass Prop_WinNvme Prop_WinDrive
  Prop_WinInfo Spec_WinFactory P_WinFactory Prop_WinFactory
  Spec_Tcg Spec_TcgCommand Spec_TcgClient Spec_TcgSession P_TcgDevice P_TcgSession Spec_TcgOnDrive Prop_TcgDevice P_TcgOnDrive P_TcgOnWin Prop_TcgOnWin Spec_LinuxSystem P_LinuxSystem Prop_LinuxTcg
  Spec_WinSystem P_WinSystem Prop_WinSystem.

(** The TCG device made from an opened drive (tcg/device.go:54-76 over common/drive_handle.go:242-244). *)
Definition win_device_of (x : whandle) (mem : N -> N -> N) : res device :=
  new_tcg_device (fst (get_tcg_level0_info_and_serial (f_dh x))) (snd (get_tcg_level0_info_and_serial (f_dh x))) mem.

Lemma opened_replay S A h hd path k d g h' x : accepted_by S A h hd k d g -> win_open_by_handle S A h hd path = (h', Ok x) ->
  exists cs, driven x d g cs /\ h' = win_replay S A d g ([CType; CName] ++ cs).
Proof.
  intros Ac H. destruct (open_accepted _ _ _ _ _ _ _ _ _ _ Ac H) as (K & _ & F & b & I).
  destruct (install_win S A g (whandle0 path b) d h' _ eq_refl F I) as (cs & _ & E & [[R _]|(x' & R & _ & D & _)]); [discriminate|]. injection R as <-. eauto.
Qed.
(** what the client takes for the drive's ComID *)
Lemma opal2_device (l : level0) serial mem dev fs data : wf data -> reports l fs -> listed 0x0200 fs = false -> last_listed 0x0203 fs = Some data -> (8 <= List.length data)%nat ->
  new_tcg_device l serial mem = Ok dev -> is_any_ssc dev = true /\ get_base_com_id dev = Ok (be16_at 4 data) /\ be16_at 4 data < 2 ^ 16 /\ get_serial dev = serial.
Proof.
  intros Wd (_ & _ & _ & _ & R5 & _ & _ & R8 & RR) Lo Ll H8 Hd. rewrite Lo in R5. rewrite (last_listed_listed _ _ _ Ll) in R8.
  pose proof (C18_com_ids _ _ _ _ Hd) as (_ & GC).
  unfold new_tcg_device in Hd. rewrite R5, R8 in Hd. cbv iota in Hd. assert (Hd' := Hd). injection Hd' as Hd'.
  destruct (GC 3 0x0203 ltac:(cbn; tauto) ltac:(rewrite <- Hd'; reflexivity)) as (_ & GB & _).
  destruct (GB data ltac:(rewrite (RR 0x0203 ltac:(discriminate)); exact Ll) Wd H8) as (GB' & _).
  split; [rewrite <- Hd'; reflexivity|]. split; [exact GB'|]. split; [exact (be16_small data Wd)|rewrite <- Hd'; reflexivity].
Qed.

(** RevertTPer succeeds only if the answer to the last receive, which Windows reported as successful, accepts the Revert. *)
Lemma miniport_reverted : forall S A d h0 p g clock kdf heap fuel dev com pw (isPsid isAdm : bool) t,
  let V := win_drv S A d h0 in
  let E := drive_env V p g clock kdf heap fuel in
  let after := win_replay S A d h0 (driver_calls V p g t) in
  wd_kind d = KNvmeWin -> over_win d p ->
  wf_system S -> (forall j, heap j < 256) -> (forall x s, List.length (kdf x s) = 32%nat /\ wf (kdf x s)) ->
  is_any_ssc dev = true -> get_base_com_id dev = Ok com -> com < 2 ^ 16 -> wf pw ->
  revert_tper E dev pw isPsid isAdm [] = (t, Ok tt) ->
  win_ok (s_io S after) /\ exists page resp, delivered (zeros (N.to_nat 4096)) (skipn 152 (wa_out (s_io S after))) page
  /\ r_buf resp = firstn (N.to_nat 2048) page /\ accepted resp.
Proof.
  intros S A d h0 p g clock kdf heap fuel dev com pw isPsid isAdm t V E after Hk Hp HS Hh Hkdf Hs Hc Hc16 Wp H.
  assert (HE : env_ok E) by (apply drive_env_ok; [now apply win_bytes_out|exact Hh|exact Hkdf]).
  destruct (revert_shaped E dev pw isPsid isAdm com [] t _ HE Hs Hc H) as (t' & Et & Sh). cbn [app] in Et. subst t'.
  destruct (c29 E dev com pw isPsid isAdm [] t _ HE Hs Hc Hc16 Wp H) as (s1 & h1 & r1 & St & (t1 & E1 & S1) & N1 & N2). cbv zeta in St, S1, N2.
  cbn [app] in E1. subst h1. change (e_pbkdf2 E) with kdf in S1. set (uid := if isPsid then uid_PSID else uid_SID) in S1.
  set (start := frame 0 0 com (start_payload uid_AdminSP (credential_of kdf (get_serial dev) isPsid pw) (uid8 uid))) in S1.
  assert (Wst : List.length start = 512%nat /\ wf start).
  { split; [apply frame_length|]. apply frame_wf. apply start_payload_wf; auto; [wf_lit|]. unfold uid. destruct isPsid; wf_lit. }
  assert (D : r1 = Ok tt).
  { assert (D : r1 = Ok tt \/ r1 <> Ok tt) by (destruct r1 as [[]| | |]; [now left|right; discriminate..]). destruct D as [D|D]; [exact D|]. destruct (N1 D) as [_ X]. congruence. }
  destruct (N2 D) as (hv & tv & t2 & c & Hn & Et & S2 & Hcs & R). assert (Hr := proj1 R eq_refl). clear R.
  destruct Hr as (resp & Ex & Ac). destruct (exec_answer E dev c com t1 t resp HE Hs Hc Ex) as (t3 & A1 & A2 & A3).
  assert (Ts : Forall (fun b => List.length b = 512%nat /\ wf b) (sends t)).
  { rewrite Et, sends_app, S1, S2. cbn [app]. apply Forall_cons; [exact Wst|]. apply Forall_cons; [|apply Forall_nil]. split; [apply frame_length|apply frame_wf, revert_payload_wf]. }
  pose proof (shaped_typed com t Hc16 Sh Ts) as Ty. clear Ts Et.
  destruct (e_sec E t) as [e out] eqn:Es. cbn [fst snd] in A2, A3. subst e. unfold after. rewrite A1 in Es, Ty |- *.
  destruct (C120_answers_over_miniport S A d h0 p g clock kdf heap fuel t3 false 1 com (zeros 2048) 5 None out Hk Hp Ty ltac:(rewrite blen2048; discriminate) Es) as [B1 B2].
  fold V in B1, B2. set (a := s_io S _) in *. assert (O : win_ok a).
  { destruct (N.eq_dec (wa_err a) 0) as [O|O]; [exact O|]. destruct (B2 O) as [X _]. discriminate. }
  split; [exact O|]. destruct (B1 O) as (_ & sent & reply & Ds & Dr & Eo). apply page_of_zeros in Ds. subst sent. exists reply, resp. split; [exact Dr|]. split; [|exact Ac].
  rewrite A3, Eo, len2048. unfold received. set (q := firstn 2048 reply). assert (Lq : List.length q = 2048%nat).
  { unfold q. rewrite firstn_length, (proj1 Dr). unfold zeros. rewrite repeat_length. lia. }
  rewrite firstn_all2 by lia. rewrite Lq. change (2048 - 2048)%nat with 0%nat. cbn [zeros repeat]. rewrite app_nil_r. unfold q. f_equal. 
Qed.

(** C131.  A drive the miniport driver accepted, whose Level 0 answer lists Opal v2 (and not Opal v1) with some ComID, is sent by RevertTPer
    exactly the StartSession and Revert frames of that ComID, whatever it answers; the credential is derived from the password and the serial
    number of its IDENTIFY data; success means that it accepted the Revert. *)
Theorem C131_revert_on_windows : forall S A h hd path d g h' x page fs data mem dev clock kdf heap fuel pw (isPsid isAdm : bool) t r,
  wf_system S -> accepted_by S A h hd KNvmeWin d g -> win_open_by_handle S A h hd path = (h', Ok x) ->
  (forall j, heap j < 256) -> (forall y s, List.length (kdf y s) = 32%nat /\ wf (kdf y s)) -> wf pw ->
  win_ok (s_io S h') -> delivered (zeros (N.to_nat 4096)) (skipn 152 (wa_out (s_io S h'))) page -> level0_answer (firstn (N.to_nat 2048) page) fs ->
  listed 0x0200 fs = false -> last_listed 0x0203 fs = Some data -> (8 <= List.length data)%nat ->
  win_device_of x mem = Ok dev ->
  forall d0 h0 cs, f_drv x = Some (d0, h0, cs) ->
  let V := win_drv S A d0 h0 in
  revert_tper (drive_env V (f_dh x) cs clock kdf heap fuel) dev pw isPsid isAdm [] = (t, r) ->
  let com := be16_at 4 data in
  let uid := if isPsid then uid_PSID else uid_SID in
  let handed cmds := map x_data (filter x_out cmds) in
  exists id, delivered (zeros (N.to_nat 4096)) (skipn 152 (wa_out (s_io S g))) id /\
  exists serial, trimmed (slice 4 20 id) serial /\
  let start := frame 0 0 com (start_payload uid_AdminSP (credential_of kdf serial isPsid pw) (uid8 uid)) in
  let after := win_replay S A d0 h0 (driver_calls V (f_dh x) cs t) in
  exists cmds evs, after = h' ++ evs /\ Forall2 (miniport_security (wd_scsi d)) cmds evs
  /\ Forall (fun y => x_protocol y = 1 /\ x_comid y = com /\ (x_out y = true \/ x_data y = zeros 2048)) cmds
  /\ (handed cmds = [start] /\ r <> Ok tt \/ exists hsn tsn, handed cmds = [start; frame hsn tsn com revert_payload])
  /\ (r = Ok tt -> win_ok (s_io S after) /\ exists page' resp, delivered (zeros (N.to_nat 4096)) (skipn 152 (wa_out (s_io S after))) page'
        /\ r_buf resp = firstn (N.to_nat 2048) page' /\ accepted resp).
Proof.
  intros S A h hd path d g h' x page fs data mem dev clock kdf heap fuel pw isPsid isAdm t r HS Ac H Hh Hkdf Wp Ok1 Dp L0 Lo Ll H8 Hd d0 h0 cs Hdr V HR com uid handed.
  assert (HB : answers_bytes S) by (intros k; apply HS).
  destruct (C129_identify_over_miniport S A h hd path d g h' x HB Ac H) as (c & _ & _ & _ & _ & _ & id & Did & T).
  destruct (C129_level0_over_miniport S A h hd path d g h' _ Ac H) as (call & _ & _ & _ & _ & Y & _).
  destruct (Y Ok1) as (page' & D' & An). assert (page' = page) by (eapply delivered_unique; eassumption). subst page'.
  destruct An as [[_ An]|(_ & x' & cs' & Ex & _ & _ & (_ & _ & R))]; [discriminate|]. injection Ex as <-. specialize (R fs L0).
  destruct (opened_replay S A h hd path KNvmeWin d g h' x Ac H) as (cs1 & (D1 & D2 & _) & Er).
  destruct (open_accepted _ _ _ _ _ _ _ _ _ _ Ac H) as (K & _).
  rewrite D2 in Hdr. injection Hdr as <- <- <-.
  exists id. split; [exact Did|]. destruct T as (_ & T2 & _). exists (i_serial (p_info (f_dh x))). split; [exact T2|]. cbv zeta.
  assert (Wpage : wf (firstn (N.to_nat 2048) page)).
  { apply wf_firstn. eapply delivered_wf; [apply wf_zeros| |exact Dp]. apply wf_skipn. apply HS. }
  assert (Wd : wf data) by (eapply wf_last_listed; [eapply descriptors_wf; eassumption|exact Ll]).
  unfold win_device_of in Hd. cbn [get_tcg_level0_info_and_serial fst snd] in Hd.
  destruct (opal2_device _ _ _ _ fs data Wd R Lo Ll H8 Hd) as (S1 & S2 & S3 & S4).
  pose proof (C120_revert_over_miniport S A d g (f_dh x) _ clock kdf heap fuel dev com pw isPsid isAdm t r K D1 HS Hh Hkdf S1 S2 S3 Wp HR) as C. cbv zeta in C.
  destruct C as (cmds & evs & C1 & C2 & C3 & C4). rewrite S4 in C4. exists cmds, evs. split; [rewrite Er; exact C1|]. split; [exact C2|]. split; [exact C3|]. split; [exact C4|].
  intros ->. exact (miniport_reverted S A d g (f_dh x) _ clock kdf heap fuel dev com pw isPsid isAdm t K D1 HS Hh Hkdf S1 S2 S3 Wp HR).
Qed.
Print Assumptions C131_revert_on_windows.
