(** C182: from an open device handle, an NVMe drive behind a Windows miniport driver that answers by the book is served: its factory password is read, and a
    PSID revert succeeds exactly with its PSID. *)
From Verif Require Import Base M_Buffer M_Struc M_Ata M_TcgToken M_TcgCommand M_TcgDevice M_TcgSession M_DriveHandle M_Cdb M_SgDriver M_Strings M_LinuxFactory M_TcgOnDrive
  M_WinPass M_WinNvme M_WinInfo M_WinFactory
  Spec_Drive P_DriveHandle P_Identity Prop_Drive Spec_LinuxFactory P_LinuxFactory Spec_Sg P_Sg Prop_Sg Spec_WinPass Spec_WinNvme P_WinPass P_WinNvme Prop_WinPass Prop_WinNvme Prop_WinDrive
  Prop_WinInfo Spec_WinFactory P_WinFactory Prop_WinFactory
  Spec_Tcg Spec_TcgCommand Spec_TcgClient Spec_TcgSession P_TcgDevice P_TcgSession Spec_TcgOnDrive Prop_TcgDevice P_TcgOnDrive P_TcgOnWin Prop_TcgOnWin Spec_LinuxSystem P_LinuxSystem Prop_LinuxTcg
  Spec_WinSystem P_WinSystem Prop_WinSystem Prop_WinTcg Spec_Conform Prop_Conform Spec_NvmeConform P_NvmeConform Prop_NvmeConform Spec_WinConform P_WinConform.

(** Over the driver: the outcome of a PSID revert is decided by the PSID alone. *)
Theorem C182_psid_over_miniport : forall S A d0 g0 p h0 clock kdf heap fuel dev com pw isAdm psid n hv tv st,
  let V := win_drv S A d0 g0 in
  let E := drive_env V p h0 clock kdf heap fuel in
  wf_system S -> wd_kind d0 = KNvmeWin -> over_win d0 p -> (forall j, heap j < 256) ->
  (forall x s, List.length (kdf x s) = 32%nat /\ wf (kdf x s)) -> (n < fuel)%nat -> fast_enough clock com n ->
  is_any_ssc dev = true -> get_base_com_id dev = Ok com -> com < 2 ^ 16 -> wf pw -> 1 <= blen pw <= 400 ->
  mp_checks_psid S (wd_scsi d0) com (win_replay S A d0 g0 h0) n psid hv tv st -> 1 <= st < 64 ->
  (pw = psid -> snd (revert_tper E dev pw true isAdm []) = Ok tt) /\ (pw <> psid -> snd (revert_tper E dev pw true isAdm []) = Err (ETcg st)).
Proof.
  intros S A d0 g0 p h0 clock kdf heap fuel dev com pw isAdm psid n hv tv st V E HS Hk Hp Hh Hkdf Hf Ck Hs Hc Hc16 Wp Lp ((ah & at_ & more & Uh & Ut & G1) & G2 & G3) Hst.
  assert (HE : env_ok E) by (apply drive_env_ok; [now apply win_bytes_out|exact Hh|exact Hkdf]).
  pose proof (psid_cred (e_pbkdf2 E) (get_serial dev) pw (proj1 Lp)) as Cr.
  set (start := psid_start com pw) in *.
  assert (Ls : List.length start = 512%nat) by (unfold start, psid_start; apply frame_length).
  assert (Ws : wf start).
  { unfold start, psid_start. apply frame_wf. rewrite <- (psid_cred kdf (get_serial dev) pw (proj1 Lp)). apply start_payload_wf; auto; wf_lit. }
  assert (Br : forall packet h m atoms, List.length packet = 512%nat -> wf packet -> Forall typed (commands h) -> mp_replies S (wd_scsi d0) com packet (win_replay S A d0 g0 (driver_calls V p h0 h)) n atoms ->
                 m = atoms -> replies E com packet h m).
  { intros packet h m atoms L W T R ->. exact (mp_replies_env S A d0 g0 p h0 clock kdf heap fuel com packet h n atoms Hk Hp Hc16 L W T Hf Ck R). }
  split; [intros ->|intros Ne].
  - assert (R : replies E com start [] (sync_session ah at_ more)) by (apply (Br start [] _ _ Ls Ws ltac:(constructor) G1 eq_refl)).
    unfold start, psid_start in R. rewrite <- Cr in R.
    destruct (C179_revert E dev com psid true isAdm [] ah hv at_ tv more 0 HE Hs Hc Hc16 Wp R Uh Ut) as (h' & Q); [|reflexivity|rewrite Q; reflexivity].
    intros k. rewrite Cr. change (replies E com (frame hv tv com revert_payload) ([] ++ exchange com start k) (no_result 0)).
    change ([] ++ exchange com start k) with (exchange com start k).
    destruct (exchange_controls S A d0 g0 p h0 com start k Hk Hp Hc16 Ls Ws) as (c & rs & Eh & Sc & Rr & _). fold V in Eh.
    refine (Br (frame hv tv com revert_payload) (exchange com start k) _ _ (frame_length _ _ _ _) (frame_wf _ _ _ _ revert_payload_wf) (exchange_typed _ _ _ Hc16 Ls Ws) _ eq_refl).
    rewrite Eh. exact (G3 c rs Sc Rr).
  - assert (R : replies E com start [] (no_result st)) by (apply (Br start [] _ _ Ls Ws ltac:(constructor) (G2 pw Wp Lp Ne) eq_refl)).
    unfold start, psid_start in R. rewrite <- Cr in R.
    destruct (C179_revert_refused E dev com pw true isAdm [] st HE Hs Hc Hc16 Wp R Hst) as (h' & ->). reflexivity.
Qed.
Print Assumptions C182_psid_over_miniport.

Theorem C182_password_over_miniport : forall S A d0 g0 p h0 clock kdf heap fuel dev com n msid,
  let V := win_drv S A d0 g0 in
  let E := drive_env V p h0 clock kdf heap fuel in
  wf_system S -> wd_kind d0 = KNvmeWin -> over_win d0 p -> (forall j, heap j < 256) ->
  (forall x s, List.length (kdf x s) = 32%nat /\ wf (kdf x s)) -> (n < fuel)%nat -> fast_enough clock com n ->
  is_any_ssc dev = true -> get_base_com_id dev = Ok com -> com < 2 ^ 16 ->
  mp_shows_msid S (wd_scsi d0) com (win_replay S A d0 g0 h0) n msid -> snd (get_default_password E dev []) = Ok msid.
Proof.
  intros S A d0 g0 p h0 clock kdf heap fuel dev com n msid V E HS Hk Hp Hh Hkdf Hf Ck Hs Hc Hc16 (ah & hv & at_ & tv & more & cell & Uh & Ut & Bc & G1 & G2).
  cbv zeta in *.
  assert (HE : env_ok E) by (apply drive_env_ok; [now apply win_bytes_out|exact Hh|exact Hkdf]).
  set (start := frame 0 0 com (start_payload uid_AdminSP None [])) in *.
  assert (Ls : List.length start = 512%nat) by apply frame_length.
  assert (Ws : wf start) by (apply frame_wf; wf_lit).
  destruct (C179_password E dev com [] ah hv at_ tv more cell msid HE Hs Hc Hc16) as (h' & Q); try assumption; [| |rewrite Q; reflexivity].
  - fold start. exact (mp_replies_env S A d0 g0 p h0 clock kdf heap fuel com start [] n _ Hk Hp Hc16 Ls Ws ltac:(constructor) Hf Ck G1).
  - intros k. fold start. cbn [app].
    destruct (exchange_controls S A d0 g0 p h0 com start k Hk Hp Hc16 Ls Ws) as (c & rs & Eh & Sc & Rr & _).
    refine (mp_replies_env S A d0 g0 p h0 clock kdf heap fuel com (frame hv tv com (get_payload (uid8 uid_C_PIN_MSID) 3 3)) (exchange com start k) n _ Hk Hp Hc16 (frame_length _ _ _ _) (frame_wf _ _ _ _ get_payload_pin_wf) (exchange_typed _ _ _ Hc16 Ls Ws) Hf Ck _).
    rewrite Eh. exact (G2 c rs Sc Rr).
Qed.
Print Assumptions C182_password_over_miniport.

(** The TCG device of a drive the miniport driver accepted that lists Opal v2 and not Opal v1. *)
Lemma opened_miniport_device S A h hd path d g h' x page fs data mem dev :
  wf_system S -> accepted_by S A h hd KNvmeWin d g -> win_open_by_handle S A h hd path = (h', Ok x) ->
  win_ok (s_io S h') -> delivered (zeros (N.to_nat 4096)) (skipn 152 (wa_out (s_io S h'))) page -> level0_answer (firstn (N.to_nat 2048) page) fs ->
  listed 0x0200 fs = false -> last_listed 0x0203 fs = Some data -> (8 <= List.length data)%nat ->
  win_device_of x mem = Ok dev ->
  forall d0 h0 cs, f_drv x = Some (d0, h0, cs) ->
  d0 = d /\ wd_kind d = KNvmeWin /\ over_win d (f_dh x) /\ win_replay S A d h0 cs = h'
  /\ is_any_ssc dev = true /\ get_base_com_id dev = Ok (be16_at 4 data) /\ be16_at 4 data < 2 ^ 16.
Proof.
  intros HS Ac H Ok1 Dp L0 Lo Ll H8 Hd d0 h0 cs Hdr.
  destruct (C129_level0_over_miniport S A h hd path d g h' _ Ac H) as (call & _ & _ & _ & _ & Y & _).
  destruct (Y Ok1) as (page' & D' & An). assert (page' = page) by (eapply delivered_unique; eassumption). subst page'.
  destruct An as [[_ An]|(_ & x' & cs' & Ex & _ & _ & (_ & _ & R))]; [discriminate|]. injection Ex as <-. specialize (R fs L0).
  destruct (opened_replay S A h hd path KNvmeWin d g h' x Ac H) as (cs1 & (D1 & D2 & _) & Er).
  destruct (open_accepted _ _ _ _ _ _ _ _ _ _ Ac H) as (Hk & _).
  rewrite D2 in Hdr. injection Hdr as <- <- <-.
  assert (Wpage : wf (firstn (N.to_nat 2048) page)).
  { apply wf_firstn. eapply delivered_wf; [apply wf_zeros| |exact Dp]. apply wf_skipn. apply HS. }
  assert (Wd : wf data) by (eapply wf_last_listed; [eapply descriptors_wf; eassumption|exact Ll]).
  unfold win_device_of in Hd. cbn [get_tcg_level0_info_and_serial fst snd] in Hd.
  destruct (opal2_device _ _ _ _ fs data Wd R Lo Ll H8 Hd) as (Hs & Hc & Hc16 & _).
  split; [reflexivity|]. split; [exact Hk|]. split; [exact D1|]. split; [symmetry; exact Er|]. auto.
Qed.

(** C182. *)
Theorem C182_psid_from_handle : forall S A h hd path d g h' x page fs data mem dev clock kdf heap fuel d0 h0 cs psid pw isAdm n hv tv st,
  wf_system S -> accepted_by S A h hd KNvmeWin d g -> win_open_by_handle S A h hd path = (h', Ok x) ->
  (forall j, heap j < 256) -> (forall y s, List.length (kdf y s) = 32%nat /\ wf (kdf y s)) ->
  win_ok (s_io S h') -> delivered (zeros (N.to_nat 4096)) (skipn 152 (wa_out (s_io S h'))) page -> level0_answer (firstn (N.to_nat 2048) page) fs ->
  listed 0x0200 fs = false -> last_listed 0x0203 fs = Some data -> (8 <= List.length data)%nat ->
  win_device_of x mem = Ok dev -> f_drv x = Some (d0, h0, cs) ->
  (n < fuel)%nat -> fast_enough clock (be16_at 4 data) n ->
  wf pw -> 1 <= blen pw <= 400 -> mp_checks_psid S (wd_scsi d) (be16_at 4 data) h' n psid hv tv st -> 1 <= st < 64 ->
  let outcome := snd (revert_tper (drive_env (win_drv S A d0 h0) (f_dh x) cs clock kdf heap fuel) dev pw true isAdm []) in
  (pw = psid -> outcome = Ok tt) /\ (pw <> psid -> outcome = Err (ETcg st)).
Proof.
  intros S A h hd path d g h' x page fs data mem dev clock kdf heap fuel d0 h0 cs psid pw isAdm n hv tv st HS Ac H Hh Hkdf Ok1 Dp L0 Lo Ll H8 Hd Hdr Hf Ck Wp Lp Cp Lst.
  destruct (opened_miniport_device S A h hd path d g h' x page fs data mem dev HS Ac H Ok1 Dp L0 Lo Ll H8 Hd d0 h0 cs Hdr) as (-> & Hk & Ho & Eo & Hssc & Hcom & H16).
  rewrite <- Eo in Cp.
  exact (C182_psid_over_miniport S A d h0 (f_dh x) cs clock kdf heap fuel dev (be16_at 4 data) pw isAdm psid n hv tv st HS Hk Ho Hh Hkdf Hf Ck Hssc Hcom H16 Wp Lp Cp Lst).
Qed.
Print Assumptions C182_psid_from_handle.

Theorem C182_password_from_handle : forall S A h hd path d g h' x page fs data mem dev clock kdf heap fuel d0 h0 cs n msid,
  wf_system S -> accepted_by S A h hd KNvmeWin d g -> win_open_by_handle S A h hd path = (h', Ok x) ->
  (forall j, heap j < 256) -> (forall y s, List.length (kdf y s) = 32%nat /\ wf (kdf y s)) ->
  win_ok (s_io S h') -> delivered (zeros (N.to_nat 4096)) (skipn 152 (wa_out (s_io S h'))) page -> level0_answer (firstn (N.to_nat 2048) page) fs ->
  listed 0x0200 fs = false -> last_listed 0x0203 fs = Some data -> (8 <= List.length data)%nat ->
  win_device_of x mem = Ok dev -> f_drv x = Some (d0, h0, cs) ->
  (n < fuel)%nat -> fast_enough clock (be16_at 4 data) n ->
  mp_shows_msid S (wd_scsi d) (be16_at 4 data) h' n msid ->
  snd (get_default_password (drive_env (win_drv S A d0 h0) (f_dh x) cs clock kdf heap fuel) dev []) = Ok msid.
Proof.
  intros S A h hd path d g h' x page fs data mem dev clock kdf heap fuel d0 h0 cs n msid HS Ac H Hh Hkdf Ok1 Dp L0 Lo Ll H8 Hd Hdr Hf Ck Cp.
  destruct (opened_miniport_device S A h hd path d g h' x page fs data mem dev HS Ac H Ok1 Dp L0 Lo Ll H8 Hd d0 h0 cs Hdr) as (-> & Hk & Ho & Eo & Hssc & Hcom & H16).
  rewrite <- Eo in Cp.
  exact (C182_password_over_miniport S A d h0 (f_dh x) cs clock kdf heap fuel dev (be16_at 4 data) n msid HS Hk Ho Hh Hkdf Hf Ck Hssc Hcom H16 Cp).
Qed.
Print Assumptions C182_password_from_handle.
