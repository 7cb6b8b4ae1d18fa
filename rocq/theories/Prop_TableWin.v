(** C185 on an NVMe drive behind a Windows miniport driver, from the device handle. *)
From Verif Require Import Base M_Buffer M_Struc M_Ata M_TcgToken M_TcgCommand M_TcgDevice M_TcgSession M_DriveHandle M_Cdb M_SgDriver M_Strings M_LinuxFactory M_TcgOnDrive
  M_WinPass M_WinNvme M_WinInfo M_WinFactory
  Spec_Drive P_DriveHandle P_Identity Prop_Drive Spec_LinuxFactory P_LinuxFactory Spec_Sg P_Sg Prop_Sg Spec_WinPass Spec_WinNvme P_WinPass P_WinNvme Prop_WinPass Prop_WinNvme Prop_WinDrive
  Prop_WinInfo Spec_WinFactory P_WinFactory Prop_WinFactory
  Spec_Tcg Spec_TcgCommand Spec_TcgClient Spec_TcgSession P_TcgDevice P_TcgSession Spec_TcgOnDrive Prop_TcgDevice P_TcgOnDrive P_TcgOnWin Prop_TcgOnWin Spec_LinuxSystem P_LinuxSystem Prop_LinuxTcg
  Spec_WinSystem P_WinSystem Prop_WinSystem Prop_WinTcg Spec_Conform P_Conform Prop_Conform Spec_NvmeConform P_NvmeConform Prop_NvmeConform Spec_Challenge P_Challenge Prop_Challenge
  Spec_WinConform P_WinConform Prop_WinConform Prop_SidWin Spec_TableConform Prop_TableConform Prop_TableDrive Spec_TableWin.

Lemma mp_reads_env S A d g0 p h0 clock kdf heap fuel com hv tv n k qs rs :
  let V := win_drv S A d g0 in
  let E := drive_env V p h0 clock kdf heap fuel in
  wd_kind d = KNvmeWin -> over_win d p -> com < 2 ^ 16 -> (n < fuel)%nat -> fast_enough clock com n -> Forall query_ok qs ->
  mp_reads S (wd_scsi d) com hv tv n k qs rs -> forall h, k = win_replay S A d g0 (driver_calls V p h0 h) -> Forall typed (commands h) -> answers_reads E com hv tv h qs rs.
Proof.
  intros V E Hk Hp Hc16 Hf Ck Hq R. induction R as [k|k q r qs rs R1 _ IH]; intros h -> Th; [constructor|].
  inversion Hq as [|? ? Q1 Q2]; subst. destruct (query_packet_facts com hv tv q Q1) as [L W]. constructor.
  - exact (mp_replies_env S A d g0 p h0 clock kdf heap fuel com _ h n _ Hk Hp Hc16 L W Th Hf Ck R1).
  - intros j. destruct (exchange_controls S A d g0 p (driver_calls V p h0 h) com (query_packet com hv tv q) j Hk Hp Hc16 L W) as (c & ks & Eh & Sc & Rr & _).
    apply (IH c ks Sc Rr Q2).
    + rewrite driver_calls_app. symmetry. exact Eh.
    + rewrite commands_app. apply Forall_app. split; [exact Th|]. apply exchange_typed; assumption.
Qed.

Theorem C185_windows_from_handle : forall S A h hd path d g h' x page fs data mem dev clock kdf heap fuel d0 h0 cs sp ch who plain n hv tv qs rs,
  wf_system S -> accepted_by S A h hd KNvmeWin d g -> win_open_by_handle S A h hd path = (h', Ok x) ->
  (forall j, heap j < 256) -> (forall y s, List.length (kdf y s) = 32%nat /\ wf (kdf y s)) ->
  win_ok (s_io S h') -> delivered (zeros (N.to_nat 4096)) (skipn 152 (wa_out (s_io S h'))) page -> level0_answer (firstn (N.to_nat 2048) page) fs ->
  listed 0x0200 fs = false -> last_listed 0x0203 fs = Some data -> (8 <= List.length data)%nat ->
  win_device_of x mem = Ok dev -> f_drv x = Some (d0, h0, cs) ->
  (n < fuel)%nat -> fast_enough clock (be16_at 4 data) n ->
  wf sp -> List.length sp = 8%nat -> wf ch -> wf who -> List.length who = 8%nat -> Forall query_ok qs -> Forall reply_ok rs ->
  let E := drive_env (win_drv S A d0 h0) (f_dh x) cs clock kdf heap fuel in
  let credential := credential_of kdf (i_serial (p_info (f_dh x))) plain ch in
  mp_lets_read S (wd_scsi d) (be16_at 4 data) h' n (session_start_packet (be16_at 4 data) sp credential who) hv tv qs rs ->
  exists s h1, session_start E dev (set_no_hash_password new_session plain) sp ch (AUid who) [] = (s, h1, Ok tt) /\ Forall2 shows (read_all E dev s h1 qs) rs.
Proof.
  intros S A h hd path d g h' x page fs data mem dev clock kdf heap fuel d0 h0 cs sp ch who plain n hv tv qs rs HS Ac H Hh Hkdf Ok1 Dp L0 Lo Ll H8 Hd Hdr Hf Ck Wsp Lsp Wch Ww Lw Hq Hr E credential Cs.
  destruct (opened_miniport_device S A h hd path d g h' x page fs data mem dev HS Ac H Ok1 Dp L0 Lo Ll H8 Hd d0 h0 cs Hdr) as (-> & Hk & Ho & Eo & Hssc & Hcom & H16).
  rewrite <- Eo in Cs. destruct Cs as ((ah & a2 & more & Uh & Ut & G1) & G2).
  set (start := session_start_packet _ _ _ _) in *.
  assert (Ls : List.length start = 512%nat) by (unfold start, session_start_packet; apply frame_length).
  assert (Ws : wf start) by (unfold start, session_start_packet; apply frame_wf; apply start_payload_wf; try assumption; apply (uid8_ok who Ww Lw)).
  assert (HE : env_ok E) by (apply drive_env_ok; [now apply win_bytes_out|exact Hh|exact Hkdf]).
  assert (Sr : start = frame 0 0 (be16_at 4 data) (start_payload sp (credential_of (e_pbkdf2 E) (get_serial dev) (s_nohash (set_no_hash_password new_session plain)) ch) (uid8 who)))
    by (unfold start, session_start_packet, credential; rewrite (win_device_serial x mem dev Hd); reflexivity).
  apply (C185_open_and_read E dev (set_no_hash_password new_session plain) sp ch who (be16_at 4 data) [] 0 0 ah hv a2 tv more qs rs HE Hssc Hcom H16); try assumption; try (split; reflexivity).
  - rewrite <- Sr. exact (mp_replies_env S A d h0 (f_dh x) cs clock kdf heap fuel _ start [] n _ Hk Ho H16 Ls Ws ltac:(constructor) Hf Ck G1).
  - intros k. rewrite <- Sr. cbn [app].
    destruct (exchange_controls S A d h0 (f_dh x) cs (be16_at 4 data) start k Hk Ho H16 Ls Ws) as (c & ks & Eh & Sc & Rr & _).
    apply (mp_reads_env S A d h0 (f_dh x) cs clock kdf heap fuel (be16_at 4 data) hv tv n _ qs rs Hk Ho H16 Hf Ck Hq (G2 c ks Sc Rr)).
    + symmetry. exact Eh.
    + apply exchange_typed; assumption.
Qed.
Print Assumptions C185_windows_from_handle.
