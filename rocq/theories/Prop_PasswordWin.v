(** C176: from an open Windows device to the factory password (MSID). *)
From Verif Require Import Base M_Buffer M_Struc M_Ata M_TcgToken M_TcgCommand M_TcgDevice M_TcgSession M_DriveHandle M_Cdb M_SgDriver M_Strings M_LinuxFactory M_TcgOnDrive
  M_WinPass M_WinNvme M_WinInfo M_WinFactory
  Spec_Drive P_DriveHandle P_Identity Prop_Drive Spec_LinuxFactory P_LinuxFactory Spec_Sg P_Sg Prop_Sg Spec_WinPass Spec_WinNvme P_WinPass P_WinNvme Prop_WinPass Prop_WinNvme Prop_WinDrive
  Prop_WinInfo Spec_WinFactory P_WinFactory Prop_WinFactory
  Spec_Tcg Spec_TcgCommand Spec_TcgClient Spec_TcgSession P_TcgDevice P_TcgSession Spec_TcgOnDrive Prop_TcgDevice P_TcgOnDrive P_TcgOnWin Prop_TcgOnWin Spec_LinuxSystem P_LinuxSystem Prop_LinuxTcg
  Spec_WinSystem P_WinSystem Prop_WinSystem Prop_WinTcg P_Password M_Sha1 Spec_Sha1 P_Sha1 Prop_Sha1 Prop_Password.

(** A drive the miniport driver accepted, whose Level 0 answer lists Opal v2 (and not Opal v1) with some ComID, is sent by GetDefaultPassword exactly a
    StartSession without credential and at most one Get of the PIN column of C_PIN_MSID; the text returned is the fifth token of the page of an
    answer Windows reported as successful and the drive accepted. *)
Theorem C176_password_over_miniport : forall S A h hd path d g h' x page fs data mem dev clock kdf heap fuel t r,
  wf_system S -> accepted_by S A h hd KNvmeWin d g -> win_open_by_handle S A h hd path = (h', Ok x) ->
  (forall j, heap j < 256) -> (forall y s, List.length (kdf y s) = 32%nat /\ wf (kdf y s)) ->
  win_ok (s_io S h') -> delivered (zeros (N.to_nat 4096)) (skipn 152 (wa_out (s_io S h'))) page -> level0_answer (firstn (N.to_nat 2048) page) fs ->
  listed 0x0200 fs = false -> last_listed 0x0203 fs = Some data -> (8 <= List.length data)%nat ->
  win_device_of x mem = Ok dev ->
  forall d0 h0 cs, f_drv x = Some (d0, h0, cs) ->
  let V := win_drv S A d0 h0 in
  get_default_password (drive_env V (f_dh x) cs clock kdf heap fuel) dev [] = (t, r) ->
  let com := be16_at 4 data in
  let handed cmds := map x_data (filter x_out cmds) in
  let start := frame 0 0 com (start_payload uid_AdminSP None []) in
  let get hsn tsn := frame hsn tsn com (get_payload (uid8 uid_C_PIN_MSID) 3 3) in
  let after := win_replay S A d0 h0 (driver_calls V (f_dh x) cs t) in
  exists cmds evs, after = h' ++ evs /\ Forall2 (miniport_security (wd_scsi d)) cmds evs
  /\ Forall (fun y => x_protocol y = 1 /\ x_comid y = com /\ (x_out y = true \/ x_data y = zeros 2048)) cmds
  /\ (handed cmds = [start] /\ (forall text, r <> Ok text) \/ exists hsn tsn, handed cmds = [start; get hsn tsn])
  /\ (forall text, r = Ok text -> win_ok (s_io S after) /\ exists page' resp tok,
        delivered (zeros (N.to_nat 4096)) (skipn 152 (wa_out (s_io S after))) page'
        /\ r_buf resp = firstn (N.to_nat 2048) page' /\ accepted resp /\ nth_error (r_tokens resp) 4 = Some tok /\ get_string tok = Ok text).
Proof.
  intros S A h hd path d g h' x page fs data mem dev clock kdf heap fuel t r HS Ac H Hh Hkdf Ok1 Dp L0 Lo Ll H8 Hd d0 h0 cs Hdr V HR com handed start get after.
  assert (HB : answers_bytes S) by (intros k; apply HS).
  destruct (C129_level0_over_miniport S A h hd path d g h' _ Ac H) as (call & _ & _ & _ & _ & Y & _).
  destruct (Y Ok1) as (page' & D' & An). assert (page' = page) by (eapply delivered_unique; eassumption). subst page'.
  destruct An as [[_ An]|(_ & x' & cs' & Ex & _ & _ & (_ & _ & R))]; [discriminate|]. injection Ex as <-. specialize (R fs L0).
  destruct (opened_replay S A h hd path KNvmeWin d g h' x Ac H) as (cs1 & (D1 & D2 & _) & Er).
  destruct (open_accepted _ _ _ _ _ _ _ _ _ _ Ac H) as (Hk & _).
  rewrite D2 in Hdr. injection Hdr as <- <- <-.
  assert (Wpage : wf (firstn (N.to_nat 2048) page)).
  { apply wf_firstn. eapply delivered_wf; [apply wf_zeros| |exact Dp]. apply wf_skipn. apply HS. }
  assert (Wd : wf data) by (eapply wf_last_listed; [eapply descriptors_wf; eassumption|exact Ll]).
  unfold win_device_of in Hd. cbn [get_tcg_level0_info_and_serial fst snd] in Hd.
  destruct (opal2_device _ _ _ _ fs data Wd R Lo Ll H8 Hd) as (Hs & Hc & Hc16 & _). fold com in Hc, Hc16.
  match type of HR with get_default_password ?e _ _ = _ => set (E := e) in HR end.
  assert (HE : env_ok E) by (apply drive_env_ok; [now apply win_bytes_out|exact Hh|exact Hkdf]).
  destruct (password_cases E dev com t r HE Hs Hc Hc16 HR) as (Sh & Ts & Cases). unfold pin_start, pin_get in Cases. fold start in Cases.
  pose proof (shaped_typed com t Hc16 Sh Ts) as Ty.
  assert (Le : Forall (fun x => blen (x_data x) <= 4096) (commands t)).
  { rewrite sends_commands in Ts. rewrite Forall_forall in Sh, Ts |- *. intros y Hy. destruct (Sh y Hy) as (_ & _ & [O|O]); [|rewrite O; discriminate].
    destruct (Ts (x_data y)) as [L _]; [apply in_map; apply filter_In; auto|]. unfold blen. rewrite L. discriminate. }
  destruct (C120_tcg_over_miniport S A d g (f_dh x) ([CType; CName] ++ cs1) t Hk D1 Ty Le) as (evs & Ra & F2).
  exists (commands t), evs. split; [unfold after, V; rewrite Er; exact Ra|]. split; [exact F2|]. split; [exact Sh|]. split.
  { unfold handed. rewrite <- sends_commands. destruct Cases as [X|(hs & ts & X & _)]; [left; exact X|right; exists hs, ts; exact X]. }
  intros text Hr. destruct Cases as [[_ X]|(hs & ts & Se & Q)]; [now apply X in Hr|].
  destruct (Q text Hr) as (resp & tok & t3 & Acc & T4 & Gs & A1 & A2 & A3). clear Q.
  destruct (e_sec E t) as [e out] eqn:Es. cbn [fst snd] in A2, A3. subst e. unfold after, V. rewrite A1 in Es, Ty |- *.
  destruct (C120_answers_over_miniport S A d g (f_dh x) ([CType; CName] ++ cs1) clock kdf heap fuel t3 false 1 com (zeros 2048) 5 None out Hk D1 Ty ltac:(rewrite blen2048; discriminate) Es) as [B1 B2].
  match type of B2 with ~ win_ok ?z -> _ => set (a := z) in * end. assert (O : win_ok a).
  { destruct (N.eq_dec (wa_err a) 0) as [O|O]; [exact O|]. destruct (B2 O) as [X _]. discriminate. }
  split; [exact O|]. destruct (B1 O) as (_ & sent & reply & Ds & Dr & Eo). apply page_of_zeros in Ds. subst sent. exists reply, resp, tok. split; [exact Dr|]. split; [|auto].
  rewrite A3, Eo, len2048. unfold received. set (q := firstn 2048 reply). assert (Lq : List.length q = 2048%nat).
  { unfold q. rewrite firstn_length, (proj1 Dr). unfold zeros. rewrite repeat_length. lia. }
  rewrite firstn_all2 by lia. rewrite Lq. change (2048 - 2048)%nat with 0%nat. cbn [zeros repeat]. rewrite app_nil_r. unfold q. f_equal.
Qed.
Print Assumptions C176_password_over_miniport.

(** RevertTPer through the miniport with the real key derivation (C173). *)
Theorem C173_revert_on_windows : forall S A h hd path d g h' x page fs data mem dev clock heap fuel pw (isPsid isAdm : bool) t r,
  wf_system S -> accepted_by S A h hd KNvmeWin d g -> win_open_by_handle S A h hd path = (h', Ok x) ->
  (forall j, heap j < 256) -> wf pw ->
  win_ok (s_io S h') -> delivered (zeros (N.to_nat 4096)) (skipn 152 (wa_out (s_io S h'))) page -> level0_answer (firstn (N.to_nat 2048) page) fs ->
  listed 0x0200 fs = false -> last_listed 0x0203 fs = Some data -> (8 <= List.length data)%nat ->
  win_device_of x mem = Ok dev ->
  forall d0 h0 cs, f_drv x = Some (d0, h0, cs) ->
  let V := win_drv S A d0 h0 in
  revert_tper (drive_env V (f_dh x) cs clock go_pbkdf2 heap fuel) dev pw isPsid isAdm [] = (t, r) ->
  let com := be16_at 4 data in
  let uid := if isPsid then uid_PSID else uid_SID in
  let handed cmds := map x_data (filter x_out cmds) in
  exists id, delivered (zeros (N.to_nat 4096)) (skipn 152 (wa_out (s_io S g))) id /\
  exists serial, trimmed (slice 4 20 id) serial /\
  let start := frame 0 0 com (start_payload uid_AdminSP (standard_credential serial isPsid pw) (uid8 uid)) in
  exists cmds evs, win_replay S A d0 h0 (driver_calls V (f_dh x) cs t) = h' ++ evs /\ Forall2 (miniport_security (wd_scsi d)) cmds evs
  /\ (handed cmds = [start] /\ r <> Ok tt \/ exists hsn tsn, handed cmds = [start; frame hsn tsn com revert_payload]).
Proof.
  intros S A h hd path d g h' x page fs data mem dev clock heap fuel pw isPsid isAdm t r HS Ac H Hh Wp Ok1 Dp L0 Lo Ll H8 Hd d0 h0 cs Hdr V HR com uid handed.
  destruct (C131_revert_on_windows S A h hd path d g h' x page fs data mem dev clock go_pbkdf2 heap fuel pw isPsid isAdm t r HS Ac H Hh go_pbkdf2_shape Wp Ok1 Dp L0 Lo Ll H8 Hd d0 h0 cs Hdr HR)
    as (id & Did & serial & T & C). cbv zeta in C.
  assert (Ws : wf serial).
  { eapply wf_trimmed; [|exact T]. apply wf_slice. eapply delivered_wf; [apply wf_zeros| |exact Did]. apply wf_skipn, HS. }
  rewrite (credential_std serial isPsid pw Ws Wp) in C. destruct C as (cmds & evs & C1 & C2 & _ & C4 & _).
  exists id. split; [exact Did|]. exists serial. split; [exact T|]. exists cmds, evs. split; [exact C1|]. split; [exact C2|exact C4].
Qed.
Print Assumptions C173_revert_on_windows.
