(** C183 on an NVMe drive behind a Windows miniport driver, from the device handle. *)
From Verif Require Import Base M_Buffer M_Struc M_Ata M_TcgToken M_TcgCommand M_TcgDevice M_TcgSession M_DriveHandle M_Cdb M_SgDriver M_Strings M_LinuxFactory M_TcgOnDrive
  M_WinPass M_WinNvme M_WinInfo M_WinFactory
  Spec_Drive P_DriveHandle P_Identity Prop_Drive Spec_LinuxFactory P_LinuxFactory Spec_Sg P_Sg Prop_Sg Spec_WinPass Spec_WinNvme P_WinPass P_WinNvme Prop_WinPass Prop_WinNvme Prop_WinDrive
  Prop_WinInfo Spec_WinFactory P_WinFactory Prop_WinFactory
  Spec_Tcg Spec_TcgCommand Spec_TcgClient Spec_TcgSession P_TcgDevice P_TcgSession Spec_TcgOnDrive Prop_TcgDevice P_TcgOnDrive P_TcgOnWin Prop_TcgOnWin Spec_LinuxSystem P_LinuxSystem Prop_LinuxTcg
  Spec_WinSystem P_WinSystem Prop_WinSystem Prop_WinTcg Spec_Conform P_Conform Prop_Conform Spec_NvmeConform P_NvmeConform Prop_NvmeConform Spec_Challenge P_Challenge Prop_Challenge
  Spec_WinConform P_WinConform Prop_WinConform Spec_Verdict Prop_Verdict Spec_VerdictWin.

Lemma mp_judges_env S A d g0 p h0 clock kdf heap fuel com sp who pin n hv tv :
  let E := drive_env (win_drv S A d g0) p h0 clock kdf heap fuel in
  wd_kind d = KNvmeWin -> over_win d p -> (n < fuel)%nat -> fast_enough clock com n -> com < 2 ^ 16 -> wf sp -> wf who ->
  mp_judges S (wd_scsi d) com (win_replay S A d g0 h0) n sp who pin hv tv -> judges E com [] sp who pin hv tv.
Proof.
  intros E Hk Hp Hf Ck Hc16 Wsp Wwho ((ah & at_ & more & Uh & Ut & G1) & G2).
  assert (Ls : List.length (open_packet com sp) = 512%nat) by (unfold open_packet; apply frame_length).
  pose proof (open_packet_wf com sp Wsp) as Ws. set (start := open_packet com sp) in *. split.
  - exists ah, at_, more. split; [exact Uh|]. split; [exact Ut|]. fold start.
    exact (mp_replies_env S A d g0 p h0 clock kdf heap fuel com start [] n _ Hk Hp Hc16 Ls Ws ltac:(constructor) Hf Ck G1).
  - intros k ch Wc Lc. fold start. cbn [app].
    destruct (exchange_controls S A d g0 p h0 com start k Hk Hp Hc16 Ls Ws) as (c & rs & Eh & Sc & Rr & _).
    assert (Lj : List.length (judge_packet com hv tv who ch) = 512%nat) by (unfold judge_packet; apply frame_length).
    refine (mp_replies_env S A d g0 p h0 clock kdf heap fuel com (judge_packet com hv tv who ch) (exchange com start k) n _ Hk Hp Hc16 Lj (judge_packet_wf com hv tv who ch Wwho Wc) (exchange_typed _ _ _ Hc16 Ls Ws) Hf Ck _).
    rewrite Eh. exact (G2 c rs ch Sc Rr Wc Lc).
Qed.

Theorem C183_windows_from_handle : forall S A h hd path d g h' x page fs data mem dev clock kdf heap fuel d0 h0 cs sp who pin pw n hv tv,
  wf_system S -> accepted_by S A h hd KNvmeWin d g -> win_open_by_handle S A h hd path = (h', Ok x) ->
  (forall j, heap j < 256) -> (forall y s, List.length (kdf y s) = 32%nat /\ wf (kdf y s)) ->
  win_ok (s_io S h') -> delivered (zeros (N.to_nat 4096)) (skipn 152 (wa_out (s_io S h'))) page -> level0_answer (firstn (N.to_nat 2048) page) fs ->
  listed 0x0200 fs = false -> last_listed 0x0203 fs = Some data -> (8 <= List.length data)%nat ->
  win_device_of x mem = Ok dev -> f_drv x = Some (d0, h0, cs) ->
  (n < fuel)%nat -> fast_enough clock (be16_at 4 data) n ->
  wf sp -> List.length sp = 8%nat -> wf who -> List.length who = 8%nat -> wf pw -> 1 <= blen pw <= 400 ->
  mp_judges S (wd_scsi d) (be16_at 4 data) h' n sp who pin hv tv ->
  let outcome plain := open_and_authenticate (drive_env (win_drv S A d0 h0) (f_dh x) cs clock kdf heap fuel) dev plain sp who pw [] in
  (pw = pin -> outcome true = Some (Err (EFmt "authentication failed: %d" 1))) /\ (pw <> pin -> outcome true = Some (Ok tt))
  /\ (blen pin <= 32 -> outcome false = Some (Ok tt)).
Proof.
  intros S A h hd path d g h' x page fs data mem dev clock kdf heap fuel d0 h0 cs sp who pin pw n hv tv HS Ac H Hh Hkdf Ok1 Dp L0 Lo Ll H8 Hd Hdr Hf Ck Wsp Lsp Wwho Lwho Wp Lp J outcome.
  destruct (opened_miniport_device S A h hd path d g h' x page fs data mem dev HS Ac H Ok1 Dp L0 Lo Ll H8 Hd d0 h0 cs Hdr) as (-> & Hk & Ho & Eo & Hssc & Hcom & H16).
  rewrite <- Eo in J.
  pose proof (mp_judges_env S A d h0 (f_dh x) cs clock kdf heap fuel (be16_at 4 data) sp who pin n hv tv Hk Ho Hf Ck H16 Wsp Wwho J) as J'.
  cbv zeta in J'. unfold outcome. set (E := drive_env _ _ _ clock kdf heap fuel) in *.
  assert (HE : env_ok E) by (apply drive_env_ok; [now apply win_bytes_out|exact Hh|exact Hkdf]).
  destruct (C183_backwards E dev (be16_at 4 data) sp who pw [] pin hv tv HE Hssc Hcom H16 Wsp Lsp Wwho Lwho Wp Lp J') as [B1 B2].
  split; [exact B2|]. split; [apply B1|]. intros L32.
  apply (C183_hashed_always E dev (be16_at 4 data) sp who pw [] pin hv tv HE Hssc Hcom H16 Wsp Lsp Wwho Lwho Wp); auto. intros ->. apply (proj1 Lp). reflexivity.
Qed.
Print Assumptions C183_windows_from_handle.
