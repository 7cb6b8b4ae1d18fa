(** C180: from the device path, a Linux NVMe drive that answers by the book is served: its factory password is read, and a PSID revert succeeds exactly
    with its PSID. *)
From Verif Require Import Base M_Buffer M_Struc M_Ata M_TcgToken M_TcgCommand M_TcgDevice M_TcgSession M_DriveHandle M_Cdb M_SgDriver M_SgHandle M_NvmeLinux M_Strings M_LinuxInfo M_LinuxFactory
  M_LinuxSystem M_TcgOnDrive Spec_Drive P_DriveHandle P_Identity Prop_Drive Spec_LinuxFactory P_LinuxFactory Prop_LinuxFactory Spec_NvmeLinux Spec_Sg P_Sg Prop_Sg
  Prop_NvmeLinux Prop_SgHandle Spec_Tcg Spec_TcgCommand Spec_TcgClient Spec_TcgSession P_TcgSession Spec_TcgOnDrive Prop_TcgDevice P_TcgOnDrive Prop_TcgOnDrive Spec_LinuxSystem P_LinuxSystem Prop_LinuxSystem
  Prop_LinuxTcg Spec_Conform Prop_Conform Spec_NvmeConform P_NvmeConform.

Lemma psid_cred kdf serial pw : 1 <= blen pw -> credential_of kdf serial true pw = Some pw.
Proof. intros L. unfold credential_of. destruct pw; [exfalso; apply L; reflexivity|reflexivity]. Qed.

(** Over the driver: the outcome of a PSID revert is decided by the PSID alone. *)
Theorem C180_psid_over_nvme : forall K fd A kh identity p h0 clock kdf heap fuel d com pw isAdm psid n hv tv st,
  let V := nv_drv K fd A kh identity in
  let E := drive_env V p h0 clock kdf heap fuel in
  over_nvme p -> (forall k, A k < 2 ^ 64) -> (forall k, wf (na_in (K k))) -> (forall j, heap j < 256) ->
  (forall x s, List.length (kdf x s) = 32%nat /\ wf (kdf x s)) -> (n < fuel)%nat -> fast_enough clock com n ->
  is_any_ssc d = true -> get_base_com_id d = Ok com -> com < 2 ^ 16 -> wf pw -> 1 <= blen pw <= 400 ->
  checks_psid K fd com (nv_replay K fd A kh h0) n psid hv tv st -> 1 <= st < 64 ->
  (pw = psid -> snd (revert_tper E d pw true isAdm []) = Ok tt) /\ (pw <> psid -> snd (revert_tper E d pw true isAdm []) = Err (ETcg st)).
Proof.
  intros K fd A kh identity p h0 clock kdf heap fuel d com pw isAdm psid n hv tv st V E Hp HA HK Hh Hkdf Hf Ck Hs Hc Hc16 Wp Lp ((ah & at_ & more & Uh & Ut & G1) & G2 & G3) Hst.
  assert (HE : env_ok E) by (apply drive_env_ok; [now apply nvme_bytes_out|exact Hh|exact Hkdf]).
  pose proof (psid_cred (e_pbkdf2 E) (get_serial d) pw (proj1 Lp)) as Cr.
  set (start := psid_start com pw) in *.
  assert (Ls : List.length start = 512%nat) by (unfold start, psid_start; apply frame_length).
  assert (Ws : wf start).
  { unfold start, psid_start. apply frame_wf. rewrite <- (psid_cred kdf (get_serial d) pw (proj1 Lp)). apply start_payload_wf; auto; wf_lit. }
  assert (Br : forall packet h m atoms, List.length packet = 512%nat -> wf packet -> Forall typed (commands h) -> nvme_replies K fd com packet (nv_replay K fd A kh (driver_calls V p h0 h)) n atoms ->
                 m = atoms -> replies E com packet h m).
  { intros packet h m atoms L W T R ->. exact (nvme_replies_env K fd A kh identity p h0 clock kdf heap fuel com packet h n atoms Hp HA Hc16 L W T Hf Ck R). }
  split; [intros ->|intros Ne].
  - assert (R : replies E com start [] (sync_session ah at_ more)) by (apply (Br start [] _ _ Ls Ws ltac:(constructor) G1 eq_refl)).
    unfold start, psid_start in R. rewrite <- Cr in R.
    destruct (C179_revert E d com psid true isAdm [] ah hv at_ tv more 0 HE Hs Hc Hc16 Wp R Uh Ut) as (h' & Q); [|reflexivity|rewrite Q; reflexivity].
    intros k. rewrite Cr. change (replies E com (frame hv tv com revert_payload) ([] ++ exchange com start k) (no_result 0)).
    change ([] ++ exchange com start k) with (exchange com start k).
    destruct (exchange_ioctls K fd A kh identity p h0 com start k Hp HA Hc16 Ls Ws) as (c & rs & Eh & Sc & Rr & _). fold V in Eh.
    refine (Br (frame hv tv com revert_payload) (exchange com start k) _ _ (frame_length _ _ _ _) (frame_wf _ _ _ _ revert_payload_wf) (exchange_typed _ _ _ Hc16 Ls Ws) _ eq_refl).
    rewrite Eh. exact (G3 c rs Sc Rr).
  - assert (R : replies E com start [] (no_result st)) by (apply (Br start [] _ _ Ls Ws ltac:(constructor) (G2 pw Wp Lp Ne) eq_refl)).
    unfold start, psid_start in R. rewrite <- Cr in R.
    destruct (C179_revert_refused E d com pw true isAdm [] st HE Hs Hc Hc16 Wp R Hst) as (h' & ->). reflexivity.
Qed.
Print Assumptions C180_psid_over_nvme.

Theorem C180_password_over_nvme : forall K fd A kh identity p h0 clock kdf heap fuel d com n msid,
  let V := nv_drv K fd A kh identity in
  let E := drive_env V p h0 clock kdf heap fuel in
  over_nvme p -> (forall k, A k < 2 ^ 64) -> (forall k, wf (na_in (K k))) -> (forall j, heap j < 256) ->
  (forall x s, List.length (kdf x s) = 32%nat /\ wf (kdf x s)) -> (n < fuel)%nat -> fast_enough clock com n ->
  is_any_ssc d = true -> get_base_com_id d = Ok com -> com < 2 ^ 16 ->
  shows_msid K fd com (nv_replay K fd A kh h0) n msid -> snd (get_default_password E d []) = Ok msid.
Proof.
  intros K fd A kh identity p h0 clock kdf heap fuel d com n msid V E Hp HA HK Hh Hkdf Hf Ck Hs Hc Hc16 (ah & hv & at_ & tv & more & cell & Uh & Ut & Bc & G1 & G2).
  cbv zeta in *.
  assert (HE : env_ok E) by (apply drive_env_ok; [now apply nvme_bytes_out|exact Hh|exact Hkdf]).
  set (start := frame 0 0 com (start_payload uid_AdminSP None [])) in *.
  assert (Ls : List.length start = 512%nat) by apply frame_length.
  assert (Ws : wf start) by (apply frame_wf; wf_lit).
  destruct (C179_password E d com [] ah hv at_ tv more cell msid HE Hs Hc Hc16) as (h' & Q); try assumption; [| |rewrite Q; reflexivity].
  - fold start. exact (nvme_replies_env K fd A kh identity p h0 clock kdf heap fuel com start [] n _ Hp HA Hc16 Ls Ws ltac:(constructor) Hf Ck G1).
  - intros k. fold start. cbn [app].
    destruct (exchange_ioctls K fd A kh identity p h0 com start k Hp HA Hc16 Ls Ws) as (c & rs & Eh & Sc & Rr & _).
    refine (nvme_replies_env K fd A kh identity p h0 clock kdf heap fuel com (frame hv tv com (get_payload (uid8 uid_C_PIN_MSID) 3 3)) (exchange com start k) n _ Hp HA Hc16 (frame_length _ _ _ _) (frame_wf _ _ _ _ get_payload_pin_wf) (exchange_typed _ _ _ Hc16 Ls Ws) Hf Ck _).
    rewrite Eh. exact (G2 c rs Sc Rr).
Qed.
Print Assumptions C180_password_over_nvme.

(** The TCG device of a drive opened by path that lists Opal v2 and not Opal v1. *)
Lemma opened_nvme_device S h path h' x fd ans fs data mem d :
  addresses_ok S -> w_open (sy_world S) (h ++ [LOpen path]) = inr fd -> open_by_path (linux S) h path = (h', Ok x) ->
  l_driver_name x = str "LinuxNvmeDriver" ->
  let at_ := at_nvme h path fd in
  let K := sy_nvme S at_ in
  let opening := nvme_ioctls S at_ x in
  (forall k, wf (na_in (K k))) -> nv_succeeded (K opening) -> delivered (zeros 2048) (na_in (K opening)) ans -> level0_answer ans fs ->
  listed 0x0200 fs = false -> last_listed 0x0203 fs = Some data -> (8 <= List.length data)%nat -> device_of x mem = Ok d ->
  exists kh id, over_nvme (l_dh x) /\ l_drv x = Some (nv_drv K fd (sy_nvme_addr S at_) kh id) /\ nv_replay K fd (sy_nvme_addr S at_) kh (l_calls x) = opening
  /\ is_any_ssc d = true /\ get_base_com_id d = Ok (be16_at 4 data) /\ be16_at 4 data < 2 ^ 16.
Proof.
  intros HS Ew H Hn at_ K opening HK Hs Da L0 Lo Ll H8 Hd.
  destruct (nvme_opened S h path h' x fd HS Ew H Hn) as (c1 & c2 & id & ans' & E & _ & _ & _ & Did & T & _ & _ & Da' & G & _ & E1 & Ef & Ho & Ed).
  fold at_ in E, Did, Da', G, E1, Ed. fold K in Did, Da', G, E1, Ed. fold opening in E.
  rewrite E in Hs, Da.
  assert (ans' = ans) by (eapply delivered_unique; eassumption). subst ans'.
  destruct (G Hs) as (_ & _ & R). specialize (R fs L0). destruct R as (_ & _ & _ & _ & R5 & _ & _ & R8 & RR).
  assert (Wans : wf ans) by (eapply delivered_wf; [apply wf_zeros| |exact Da]; apply HK).
  assert (Wd : wf data) by (eapply wf_last_listed; [eapply descriptors_wf; eassumption|exact Ll]).
  unfold device_of in Hd. cbn [get_tcg_level0_info_and_serial fst snd] in Hd.
  rewrite Lo in R5. rewrite (last_listed_listed _ _ _ Ll) in R8.
  pose proof (C18_com_ids _ _ _ _ Hd) as (_ & GC).
  unfold new_tcg_device in Hd. rewrite R5, R8 in Hd. cbv iota in Hd.
  assert (Hd' := Hd). injection Hd' as Hd'.
  destruct (GC 3 0x0203 ltac:(cbn; tauto) ltac:(rewrite <- Hd'; reflexivity)) as (_ & GB & _).
  destruct (GB data ltac:(rewrite (RR 0x0203 ltac:(discriminate)); exact Ll) Wd H8) as (GB' & _).
  exists [c1], id. split; [exact Ho|]. split; [exact Ed|]. split.
  { unfold opening, nvme_ioctls. cbv zeta. fold at_ K. rewrite Ef, E1. reflexivity. }
  split; [rewrite <- Hd'; reflexivity|]. split; [exact GB'|exact (be16_small data Wd)].
Qed.

(** C180. *)
Theorem C180_psid_from_path : forall S h path h' x fd ans fs data mem d clock kdf heap fuel psid pw isAdm n hv tv st V,
  addresses_ok S -> w_open (sy_world S) (h ++ [LOpen path]) = inr fd -> open_by_path (linux S) h path = (h', Ok x) ->
  l_driver_name x = str "LinuxNvmeDriver" ->
  let at_ := at_nvme h path fd in
  let K := sy_nvme S at_ in
  let opening := nvme_ioctls S at_ x in
  (forall k, wf (na_in (K k))) -> (forall j, heap j < 256) -> (forall y s, List.length (kdf y s) = 32%nat /\ wf (kdf y s)) ->
  nv_succeeded (K opening) -> delivered (zeros 2048) (na_in (K opening)) ans -> level0_answer ans fs ->
  listed 0x0200 fs = false -> last_listed 0x0203 fs = Some data -> (8 <= List.length data)%nat ->
  device_of x mem = Ok d -> l_drv x = Some V ->
  (n < fuel)%nat -> fast_enough clock (be16_at 4 data) n -> wf pw -> 1 <= blen pw <= 400 ->
  checks_psid K fd (be16_at 4 data) opening n psid hv tv st -> 1 <= st < 64 ->
  let outcome := snd (revert_tper (drive_env V (l_dh x) (l_calls x) clock kdf heap fuel) d pw true isAdm []) in
  (pw = psid -> outcome = Ok tt) /\ (pw <> psid -> outcome = Err (ETcg st)).
Proof.
  intros S h path h' x fd ans fs data mem d clock kdf heap fuel psid pw isAdm n hv tv st V HS Ew H Hn at_ K opening HK Hh Hkdf Hs Da L0 Lo Ll H8 Hd HV Hf Ck Wp Lp Cp Lst.
  destruct (opened_nvme_device S h path h' x fd ans fs data mem d HS Ew H Hn HK Hs Da L0 Lo Ll H8 Hd) as (kh & id & Ho & Ed & Eo & Hssc & Hcom & H16). fold at_ K opening in Ed, Eo.
  rewrite Ed in HV. injection HV as <-. rewrite <- Eo in Cp.
  exact (C180_psid_over_nvme K fd (sy_nvme_addr S at_) kh id (l_dh x) (l_calls x) clock kdf heap fuel d (be16_at 4 data) pw isAdm psid n hv tv st
    Ho (proj1 HS _) HK Hh Hkdf Hf Ck Hssc Hcom H16 Wp Lp Cp Lst).
Qed.
Print Assumptions C180_psid_from_path.

Theorem C180_password_from_path : forall S h path h' x fd ans fs data mem d clock kdf heap fuel n msid V,
  addresses_ok S -> w_open (sy_world S) (h ++ [LOpen path]) = inr fd -> open_by_path (linux S) h path = (h', Ok x) ->
  l_driver_name x = str "LinuxNvmeDriver" ->
  let at_ := at_nvme h path fd in
  let K := sy_nvme S at_ in
  let opening := nvme_ioctls S at_ x in
  (forall k, wf (na_in (K k))) -> (forall j, heap j < 256) -> (forall y s, List.length (kdf y s) = 32%nat /\ wf (kdf y s)) ->
  nv_succeeded (K opening) -> delivered (zeros 2048) (na_in (K opening)) ans -> level0_answer ans fs ->
  listed 0x0200 fs = false -> last_listed 0x0203 fs = Some data -> (8 <= List.length data)%nat ->
  device_of x mem = Ok d -> l_drv x = Some V ->
  (n < fuel)%nat -> fast_enough clock (be16_at 4 data) n ->
  shows_msid K fd (be16_at 4 data) opening n msid ->
  snd (get_default_password (drive_env V (l_dh x) (l_calls x) clock kdf heap fuel) d []) = Ok msid.
Proof.
  intros S h path h' x fd ans fs data mem d clock kdf heap fuel n msid V HS Ew H Hn at_ K opening HK Hh Hkdf Hs Da L0 Lo Ll H8 Hd HV Hf Ck Cp.
  destruct (opened_nvme_device S h path h' x fd ans fs data mem d HS Ew H Hn HK Hs Da L0 Lo Ll H8 Hd) as (kh & id & Ho & Ed & Eo & Hssc & Hcom & H16). fold at_ K opening in Ed, Eo.
  rewrite Ed in HV. injection HV as <-. rewrite <- Eo in Cp.
  exact (C180_password_over_nvme K fd (sy_nvme_addr S at_) kh id (l_dh x) (l_calls x) clock kdf heap fuel d (be16_at 4 data) n msid
    Ho (proj1 HS _) HK Hh Hkdf Hf Ck Hssc Hcom H16 Cp).
Qed.
Print Assumptions C180_password_from_path.
