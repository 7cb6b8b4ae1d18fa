(** C184 on an NVMe drive behind a Windows miniport driver, from the device handle. *)
From Verif Require Import Base M_Buffer M_Struc M_Ata M_TcgToken M_TcgCommand M_TcgDevice M_TcgSession M_DriveHandle M_Cdb M_SgDriver M_Strings M_LinuxFactory M_TcgOnDrive
  M_WinPass M_WinNvme M_WinInfo M_WinFactory
  Spec_Drive P_DriveHandle P_Identity Prop_Drive Spec_LinuxFactory P_LinuxFactory Spec_Sg P_Sg Prop_Sg Spec_WinPass Spec_WinNvme P_WinPass P_WinNvme Prop_WinPass Prop_WinNvme Prop_WinDrive
  Prop_WinInfo Spec_WinFactory P_WinFactory Prop_WinFactory
  Spec_Tcg Spec_TcgCommand Spec_TcgClient Spec_TcgSession P_TcgDevice P_TcgSession Spec_TcgOnDrive Prop_TcgDevice P_TcgOnDrive P_TcgOnWin Prop_TcgOnWin Spec_LinuxSystem P_LinuxSystem Prop_LinuxTcg
  Spec_WinSystem P_WinSystem Prop_WinSystem Prop_WinTcg Spec_Conform P_Conform Prop_Conform Spec_NvmeConform P_NvmeConform Prop_NvmeConform Spec_Challenge P_Challenge Prop_Challenge
  Spec_WinConform P_WinConform Prop_WinConform Spec_SidConform Prop_SidConform.

Lemma mp_checks_sid_env S A d g0 p h0 clock kdf heap fuel com pin n hv tv st :
  let E := drive_env (win_drv S A d g0) p h0 clock kdf heap fuel in
  wd_kind d = KNvmeWin -> over_win d p -> (n < fuel)%nat -> fast_enough clock com n -> com < 2 ^ 16 -> wf pin -> 1 <= blen pin ->
  mp_checks_sid S (wd_scsi d) com (win_replay S A d g0 h0) n pin hv tv st -> checks_sid E com [] pin hv tv st.
Proof.
  intros E Hk Hp Hf Ck Hc16 Wp Lp ((ah & at_ & more & Uh & Ut & G1) & G2 & G3).
  destruct (sid_start_facts com pin Wp Lp) as [Ls Ws]. split; [|split].
  - exists ah, at_, more. split; [exact Uh|]. split; [exact Ut|].
    exact (mp_replies_env S A d g0 p h0 clock kdf heap fuel com (sid_start com pin) [] n _ Hk Hp Hc16 Ls Ws ltac:(constructor) Hf Ck G1).
  - intros ch Wc Lc Ne. destruct (sid_start_facts com ch Wc (proj1 Lc)) as [Lh Wh].
    exact (mp_replies_env S A d g0 p h0 clock kdf heap fuel com (sid_start com ch) [] n _ Hk Hp Hc16 Lh Wh ltac:(constructor) Hf Ck (G2 ch Wc Lc Ne)).
  - intros k. cbn [app].
    destruct (exchange_controls S A d g0 p h0 com (sid_start com pin) k Hk Hp Hc16 Ls Ws) as (c & rs & Eh & Sc & Rr & _).
    refine (mp_replies_env S A d g0 p h0 clock kdf heap fuel com (frame hv tv com revert_payload) (exchange com (sid_start com pin) k) n _ Hk Hp Hc16 (frame_length _ _ _ _) (frame_wf _ _ _ _ revert_payload_wf) (exchange_typed _ _ _ Hc16 Ls Ws) Hf Ck _).
    rewrite Eh. exact (G3 c rs Sc Rr).
Qed.

Lemma win_device_serial x mem dev : win_device_of x mem = Ok dev -> get_serial dev = i_serial (p_info (f_dh x)).
Proof.
  intros H. unfold win_device_of in H. cbn [get_tcg_level0_info_and_serial fst snd] in H. unfold new_tcg_device in H.
  destruct (l_opal1 _); [injection H as <-; reflexivity|]. destruct (l_opal2 _); [injection H as <-; reflexivity|]. destruct (l_enterprise _); injection H as <-; reflexivity.
Qed.

Theorem C184_windows_from_handle : forall S A h hd path d g h' x page fs data mem dev clock kdf heap fuel d0 h0 cs pin pw isAdm n hv tv st,
  wf_system S -> accepted_by S A h hd KNvmeWin d g -> win_open_by_handle S A h hd path = (h', Ok x) ->
  (forall j, heap j < 256) -> (forall y s, List.length (kdf y s) = 32%nat /\ wf (kdf y s)) ->
  win_ok (s_io S h') -> delivered (zeros (N.to_nat 4096)) (skipn 152 (wa_out (s_io S h'))) page -> level0_answer (firstn (N.to_nat 2048) page) fs ->
  listed 0x0200 fs = false -> last_listed 0x0203 fs = Some data -> (8 <= List.length data)%nat ->
  win_device_of x mem = Ok dev -> f_drv x = Some (d0, h0, cs) ->
  (n < fuel)%nat -> fast_enough clock (be16_at 4 data) n -> wf pw -> pw <> [] -> wf pin -> 1 <= blen pin ->
  mp_checks_sid S (wd_scsi d) (be16_at 4 data) h' n pin hv tv st -> 1 <= st < 64 ->
  let presented : bytes := [0xD0; 32] ++ kdf (firstn 32 pw) (i_serial (p_info (f_dh x))) in
  let outcome := snd (revert_tper (drive_env (win_drv S A d0 h0) (f_dh x) cs clock kdf heap fuel) dev pw false isAdm []) in
  (presented = pin -> outcome = Ok tt) /\ (presented <> pin -> outcome = Err (ETcg st)) /\ (blen pin <= 32 -> outcome = Err (ETcg st)).
Proof.
  intros S A h hd path d g h' x page fs data mem dev clock kdf heap fuel d0 h0 cs pin pw isAdm n hv tv st HS Ac H Hh Hkdf Ok1 Dp L0 Lo Ll H8 Hd Hdr Hf Ck Wp Np Wn Ln Cs Hst presented outcome.
  destruct (opened_miniport_device S A h hd path d g h' x page fs data mem dev HS Ac H Ok1 Dp L0 Lo Ll H8 Hd d0 h0 cs Hdr) as (-> & Hk & Ho & Eo & Hssc & Hcom & H16).
  rewrite <- Eo in Cs.
  pose proof (mp_checks_sid_env S A d h0 (f_dh x) cs clock kdf heap fuel (be16_at 4 data) pin n hv tv st Hk Ho Hf Ck H16 Wn Ln Cs) as J.
  cbv zeta in J. unfold outcome. set (E := drive_env _ _ _ clock kdf heap fuel) in *.
  assert (HE : env_ok E) by (apply drive_env_ok; [now apply win_bytes_out|exact Hh|exact Hkdf]).
  destruct (C184_outcome E dev (be16_at 4 data) pw isAdm [] pin hv tv st HE Hssc Hcom H16 Wp Np J Hst) as [B1 B2].
  rewrite (win_device_serial x mem dev Hd) in B1, B2. split; [exact B1|]. split; [exact B2|].
  exact (C184_owner_refused E dev (be16_at 4 data) pw isAdm [] pin hv tv st HE Hssc Hcom H16 Wp Np J Hst).
Qed.
Print Assumptions C184_windows_from_handle.
