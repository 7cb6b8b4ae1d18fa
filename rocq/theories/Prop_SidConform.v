(** C184: the owner's revert. On a drive that checks its SID PIN by the book, RevertTPer without PSID succeeds exactly if the PIN is D0h 20h and the PBKDF2 key
    of the password - never, if the PIN fits Opal's 32 bytes. *)
From Verif Require Import Base M_Buffer M_Struc M_Ata M_TcgToken M_TcgCommand M_TcgDevice M_TcgSession M_DriveHandle M_Cdb M_SgDriver M_SgHandle M_NvmeLinux M_Strings M_LinuxInfo M_LinuxFactory
  M_LinuxSystem M_TcgOnDrive Spec_Drive P_DriveHandle P_Identity Prop_Drive Spec_LinuxFactory P_LinuxFactory Prop_LinuxFactory Spec_NvmeLinux Spec_Sg P_Sg Prop_Sg
  Prop_NvmeLinux Prop_SgHandle Spec_Tcg Spec_TcgCommand Spec_TcgClient Spec_TcgSession P_TcgSession Spec_TcgOnDrive Prop_TcgDevice Prop_TcgSession P_TcgOnDrive Prop_TcgOnDrive Spec_LinuxSystem P_LinuxSystem Prop_LinuxSystem
  Prop_LinuxTcg Spec_Conform P_Conform Prop_Conform Spec_NvmeConform P_NvmeConform Prop_NvmeConform Spec_Challenge P_Challenge Prop_Challenge Spec_LinuxSata Prop_LinuxSataTcg Spec_SataConform P_SataConform Prop_SataConform
  M_Sha1 Spec_Sha1 P_Sha1 Prop_Sha1 Spec_SidConform.

Lemma sid_cred kdf serial pw : pw <> [] -> credential_of kdf serial false pw = @Some bytes ([0xD0; 32] ++ kdf (firstn 32 pw) serial).
Proof. intros Np. unfold credential_of. destruct pw; [now elim Np|reflexivity]. Qed.

Theorem C184_outcome : forall E d com pw isAdm h pin hv tv st,
  env_ok E -> is_any_ssc d = true -> get_base_com_id d = Ok com -> com < 2 ^ 16 -> wf pw -> pw <> [] ->
  checks_sid E com h pin hv tv st -> 1 <= st < 64 ->
  let presented : bytes := [0xD0; 32] ++ e_pbkdf2 E (firstn 32 pw) (get_serial d) in
  let outcome := snd (revert_tper E d pw false isAdm h) in
  (presented = pin -> outcome = Ok tt) /\ (presented <> pin -> outcome = Err (ETcg st)).
Proof.
  intros E d com pw isAdm h pin hv tv st HE Hs Hc Hc16 Wp Np ((ah & at_ & more & Uh & Ut & G1) & G2 & G3) Hst presented outcome.
  pose proof (sid_cred (e_pbkdf2 E) (get_serial d) pw Np) as Cr. change (@Some bytes ([0xD0; 32] ++ e_pbkdf2 E (firstn 32 pw) (get_serial d))) with (@Some bytes presented) in Cr.
  assert (Kd : List.length (e_pbkdf2 E (firstn 32 pw) (get_serial d)) = 32%nat /\ wf (e_pbkdf2 E (firstn 32 pw) (get_serial d))) by apply HE.
  assert (Wr : wf presented) by (unfold presented; rewrite wf_app; split; [wf_lit|apply Kd]).
  assert (Lr : blen presented = 34) by (unfold presented, blen; rewrite app_length, (proj1 Kd); reflexivity).
  clearbody presented. split.
  - intros <-. unfold sid_start in G1, G3. rewrite <- Cr in G1, G3.
    destruct (C179_revert E d com pw false isAdm h ah hv at_ tv more 0 HE Hs Hc Hc16 Wp G1 Uh Ut G3 ltac:(reflexivity)) as (h' & Q). unfold outcome. rewrite Q. reflexivity.
  - intros Ne. specialize (G2 presented Wr ltac:(rewrite Lr; split; discriminate) Ne). unfold sid_start in G2. rewrite <- Cr in G2.
    destruct (C179_revert_refused E d com pw false isAdm h st HE Hs Hc Hc16 Wp G2 Hst) as (h' & Q). unfold outcome. rewrite Q. reflexivity.
Qed.
Print Assumptions C184_outcome.

(** The PIN fits Opal's column: refused whatever the password, the right one included. *)
Theorem C184_owner_refused : forall E d com pw isAdm h pin hv tv st,
  env_ok E -> is_any_ssc d = true -> get_base_com_id d = Ok com -> com < 2 ^ 16 -> wf pw -> pw <> [] ->
  checks_sid E com h pin hv tv st -> 1 <= st < 64 -> blen pin <= 32 ->
  snd (revert_tper E d pw false isAdm h) = Err (ETcg st).
Proof.
  intros E d com pw isAdm h pin hv tv st HE Hs Hc Hc16 Wp Np G Hst L32.
  apply (C184_outcome E d com pw isAdm h pin hv tv st HE Hs Hc Hc16 Wp Np G Hst). intros Ep. rewrite <- Ep in L32.
  assert (Kd : List.length (e_pbkdf2 E (firstn 32 pw) (get_serial d)) = 32%nat) by apply HE.
  unfold blen in L32. rewrite app_length, Kd in L32. apply L32. reflexivity.
Qed.
Print Assumptions C184_owner_refused.

(** With the key derivation the library uses: PBKDF2-HMAC-SHA1, 75000 iterations, 32 bytes. *)
Theorem C184_standard : forall E d com pw isAdm h pin hv tv st,
  real_env E -> is_any_ssc d = true -> get_base_com_id d = Ok com -> com < 2 ^ 16 -> wf pw -> pw <> [] -> wf (get_serial d) ->
  checks_sid E com h pin hv tv st -> 1 <= st < 64 ->
  let outcome := snd (revert_tper E d pw false isAdm h) in
  (pin = [0xD0; 32] ++ PBKDF2_HMAC_SHA1 (firstn 32 pw) (get_serial d) 75000 32 -> outcome = Ok tt)
  /\ (pin <> [0xD0; 32] ++ PBKDF2_HMAC_SHA1 (firstn 32 pw) (get_serial d) 75000 32 -> outcome = Err (ETcg st)).
Proof.
  intros E d com pw isAdm h pin hv tv st HE Hs Hc Hc16 Wp Np Ws G Hst.
  pose proof (C184_outcome E d com pw isAdm h pin hv tv st (C173_env_ok E HE) Hs Hc Hc16 Wp Np G Hst) as Q. cbv zeta in Q |- *.
  rewrite (proj1 HE), (go_pbkdf2_std _ _ (wf_firstn 32 pw Wp) Ws) in Q. destruct Q as [Q1 Q2].
  split; [intros Ep; apply Q1; symmetry; exact Ep|intros Ne; apply Q2; intros Ep; apply Ne; symmetry; exact Ep].
Qed.
Print Assumptions C184_standard.

(** Linux, NVMe. *)
Lemma sid_start_facts com ch : wf ch -> 1 <= blen ch -> List.length (sid_start com ch) = 512%nat /\ wf (sid_start com ch).
Proof.
  intros W L. split; [unfold sid_start; apply frame_length|]. unfold sid_start. apply frame_wf. rewrite <- (psid_cred (fun _ _ => zeros 32) [] ch L). apply start_payload_wf; auto; try wf_lit.
  intros _ _. split; [reflexivity|apply wf_zeros].
Qed.
Lemma nvme_checks_sid_env K fd A kh identity p h0 clock kdf heap fuel com pin n hv tv st :
  let E := drive_env (nv_drv K fd A kh identity) p h0 clock kdf heap fuel in
  over_nvme p -> (forall k, A k < 2 ^ 64) -> (n < fuel)%nat -> fast_enough clock com n -> com < 2 ^ 16 -> wf pin -> 1 <= blen pin ->
  nvme_checks_sid K fd com (nv_replay K fd A kh h0) n pin hv tv st -> checks_sid E com [] pin hv tv st.
Proof.
  intros E Hp HA Hf Ck Hc16 Wp Lp ((ah & at_ & more & Uh & Ut & G1) & G2 & G3).
  destruct (sid_start_facts com pin Wp Lp) as [Ls Ws]. split; [|split].
  - exists ah, at_, more. split; [exact Uh|]. split; [exact Ut|].
    exact (nvme_replies_env K fd A kh identity p h0 clock kdf heap fuel com (sid_start com pin) [] n _ Hp HA Hc16 Ls Ws ltac:(constructor) Hf Ck G1).
  - intros ch Wc Lc Ne. destruct (sid_start_facts com ch Wc (proj1 Lc)) as [Lh Wh].
    exact (nvme_replies_env K fd A kh identity p h0 clock kdf heap fuel com (sid_start com ch) [] n _ Hp HA Hc16 Lh Wh ltac:(constructor) Hf Ck (G2 ch Wc Lc Ne)).
  - intros k. cbn [app].
    destruct (exchange_ioctls K fd A kh identity p h0 com (sid_start com pin) k Hp HA Hc16 Ls Ws) as (c & rs & Eh & Sc & Rr & _).
    refine (nvme_replies_env K fd A kh identity p h0 clock kdf heap fuel com (frame hv tv com revert_payload) (exchange com (sid_start com pin) k) n _ Hp HA Hc16 (frame_length _ _ _ _) (frame_wf _ _ _ _ revert_payload_wf) (exchange_typed _ _ _ Hc16 Ls Ws) Hf Ck _).
    rewrite Eh. exact (G3 c rs Sc Rr).
Qed.
Lemma device_serial x mem d : device_of x mem = Ok d -> get_serial d = i_serial (p_info (l_dh x)).
Proof.
  intros H. unfold device_of in H. cbn [get_tcg_level0_info_and_serial fst snd] in H. unfold new_tcg_device in H.
  destruct (l_opal1 _); [injection H as <-; reflexivity|]. destruct (l_opal2 _); [injection H as <-; reflexivity|]. destruct (l_enterprise _); injection H as <-; reflexivity.
Qed.

Theorem C184_nvme_from_path : forall S h path h' x fd ans fs data mem d clock kdf heap fuel pin pw isAdm n hv tv st V,
  addresses_ok S -> w_open (sy_world S) (h ++ [LOpen path]) = inr fd -> open_by_path (linux S) h path = (h', Ok x) ->
  l_driver_name x = str "LinuxNvmeDriver" ->
  let at_ := at_nvme h path fd in
  let K := sy_nvme S at_ in
  let opening := nvme_ioctls S at_ x in
  (forall k, wf (na_in (K k))) -> (forall j, heap j < 256) -> (forall y s, List.length (kdf y s) = 32%nat /\ wf (kdf y s)) ->
  nv_succeeded (K opening) -> delivered (zeros 2048) (na_in (K opening)) ans -> level0_answer ans fs ->
  listed 0x0200 fs = false -> last_listed 0x0203 fs = Some data -> (8 <= List.length data)%nat ->
  device_of x mem = Ok d -> l_drv x = Some V ->
  (n < fuel)%nat -> fast_enough clock (be16_at 4 data) n -> wf pw -> pw <> [] -> wf pin -> 1 <= blen pin ->
  nvme_checks_sid K fd (be16_at 4 data) opening n pin hv tv st -> 1 <= st < 64 ->
  let presented : bytes := [0xD0; 32] ++ kdf (firstn 32 pw) (i_serial (p_info (l_dh x))) in
  let outcome := snd (revert_tper (drive_env V (l_dh x) (l_calls x) clock kdf heap fuel) d pw false isAdm []) in
  (presented = pin -> outcome = Ok tt) /\ (presented <> pin -> outcome = Err (ETcg st)) /\ (blen pin <= 32 -> outcome = Err (ETcg st)).
Proof.
  intros S h path h' x fd ans fs data mem d clock kdf heap fuel pin pw isAdm n hv tv st V HS Ew H Hn at_ K opening HK Hh Hkdf Hs Da L0 Lo Ll H8 Hd HV Hf Ck Wp Np Wn Ln Cs Hst presented outcome.
  destruct (opened_nvme_device S h path h' x fd ans fs data mem d HS Ew H Hn HK Hs Da L0 Lo Ll H8 Hd) as (kh & id & Ho & Ed & Eo & Hssc & Hcom & H16). fold at_ K opening in Ed, Eo.
  rewrite Ed in HV. injection HV as <-. rewrite <- Eo in Cs.
  pose proof (nvme_checks_sid_env K fd (sy_nvme_addr S at_) kh id (l_dh x) (l_calls x) clock kdf heap fuel (be16_at 4 data) pin n hv tv st Ho (proj1 HS _) Hf Ck H16 Wn Ln Cs) as J.
  cbv zeta in J. unfold outcome. set (E := drive_env _ _ _ clock kdf heap fuel) in *.
  assert (HE : env_ok E) by (apply drive_env_ok; [apply nvme_bytes_out; first [exact Ho|exact HK|exact (proj1 HS _)]|exact Hh|exact Hkdf]).
  destruct (C184_outcome E d (be16_at 4 data) pw isAdm [] pin hv tv st HE Hssc Hcom H16 Wp Np J Hst) as [B1 B2].
  rewrite (device_serial x mem d Hd) in B1, B2. split; [exact B1|]. split; [exact B2|].
  exact (C184_owner_refused E d (be16_at 4 data) pw isAdm [] pin hv tv st HE Hssc Hcom H16 Wp Np J Hst).
Qed.
Print Assumptions C184_nvme_from_path.

(** Linux, SATA. *)
Lemma sata_checks_sid_env K A kh identity p h0 clock kdf heap fuel com pin n hv tv st :
  let E := drive_env (sg_drv K A kh identity) p h0 clock kdf heap fuel in
  over_sg p -> takes_security K -> (n < fuel)%nat -> fast_enough clock com n -> com < 2 ^ 16 -> wf pin -> 1 <= blen pin ->
  sata_checks_sid K com (sg_replay K A kh h0) n pin hv tv st -> checks_sid E com [] pin hv tv st.
Proof.
  intros E Hp HT Hf Ck Hc16 Wp Lp ((ah & at_ & more & Uh & Ut & G1) & G2 & G3).
  destruct (sid_start_facts com pin Wp Lp) as [Ls Ws]. split; [|split].
  - exists ah, at_, more. split; [exact Uh|]. split; [exact Ut|].
    exact (sata_replies_env K A kh identity p h0 clock kdf heap fuel com (sid_start com pin) [] n _ Hp HT Hc16 Ls Ws ltac:(constructor) Hf Ck G1).
  - intros ch Wc Lc Ne. destruct (sid_start_facts com ch Wc (proj1 Lc)) as [Lh Wh].
    exact (sata_replies_env K A kh identity p h0 clock kdf heap fuel com (sid_start com ch) [] n _ Hp HT Hc16 Lh Wh ltac:(constructor) Hf Ck (G2 ch Wc Lc Ne)).
  - intros k. cbn [app].
    destruct (exchange_requests K A kh identity p h0 com (sid_start com pin) k Hp HT Hc16 Ls Ws) as (c & rs & Eh & Sc & Rr & _).
    refine (sata_replies_env K A kh identity p h0 clock kdf heap fuel com (frame hv tv com revert_payload) (exchange com (sid_start com pin) k) n _ Hp HT Hc16 (frame_length _ _ _ _) (frame_wf _ _ _ _ revert_payload_wf) (exchange_typed _ _ _ Hc16 Ls Ws) Hf Ck _).
    rewrite Eh. exact (G3 c rs Sc Rr).
Qed.

Theorem C184_sata_from_path : forall S h path h' x fd ans fs data mem d clock kdf heap fuel pin pw isAdm n hv tv st V,
  addresses_ok S -> w_open (sy_world S) (h ++ [LOpen path]) = inr fd -> open_by_path (linux S) h path = (h', Ok x) ->
  no_nvme (sy_nvme S (at_nvme h path fd)) -> l_driver_name x = str "LinuxScsiDriver" ->
  let at_ := at_sg h path fd in
  let K := sy_sg S at_ in
  let opening := sg_ioctls S at_ x in
  takes_security K -> (forall k, wf (an_in (K k))) -> (forall j, heap j < 256) -> (forall y s, List.length (kdf y s) = 32%nat /\ wf (kdf y s)) ->
  delivered (zeros 2048) (an_in (K opening)) ans -> level0_answer ans fs ->
  listed 0x0200 fs = false -> last_listed 0x0203 fs = Some data -> (8 <= List.length data)%nat ->
  device_of x mem = Ok d -> l_drv x = Some V ->
  (n < fuel)%nat -> fast_enough clock (be16_at 4 data) n -> wf pw -> pw <> [] -> wf pin -> 1 <= blen pin ->
  sata_checks_sid K (be16_at 4 data) opening n pin hv tv st -> 1 <= st < 64 ->
  let presented : bytes := [0xD0; 32] ++ kdf (firstn 32 pw) (i_serial (p_info (l_dh x))) in
  let outcome := snd (revert_tper (drive_env V (l_dh x) (l_calls x) clock kdf heap fuel) d pw false isAdm []) in
  (presented = pin -> outcome = Ok tt) /\ (presented <> pin -> outcome = Err (ETcg st)) /\ (blen pin <= 32 -> outcome = Err (ETcg st)).
Proof.
  intros S h path h' x fd ans fs data mem d clock kdf heap fuel pin pw isAdm n hv tv st V HS Ew H Nn Hn at_ K opening HT HK Hh Hkdf Da L0 Lo Ll H8 Hd HV Hf Ck Wp Np Wn Ln Cs Hst presented outcome.
  destruct (opened_sata_device S h path h' x fd ans fs data mem d HS Ew H Nn Hn HT HK Da L0 Lo Ll H8 Hd) as (kh & id & Ho & Ed & Eo & Hssc & Hcom & H16). fold at_ K opening in Ed, Eo.
  rewrite Ed in HV. injection HV as <-. rewrite <- Eo in Cs.
  pose proof (sata_checks_sid_env K (sy_sg_addr S at_) kh id (l_dh x) (l_calls x) clock kdf heap fuel (be16_at 4 data) pin n hv tv st Ho HT Hf Ck H16 Wn Ln Cs) as J.
  cbv zeta in J. unfold outcome. set (E := drive_env _ _ _ clock kdf heap fuel) in *.
  assert (HE : env_ok E) by (apply drive_env_ok; [apply sg_bytes_out; first [exact Ho|exact HK]|exact Hh|exact Hkdf]).
  destruct (C184_outcome E d (be16_at 4 data) pw isAdm [] pin hv tv st HE Hssc Hcom H16 Wp Np J Hst) as [B1 B2].
  rewrite (device_serial x mem d Hd) in B1, B2. split; [exact B1|]. split; [exact B2|].
  exact (C184_owner_refused E d (be16_at 4 data) pw isAdm [] pin hv tv st HE Hssc Hcom H16 Wp Np J Hst).
Qed.
Print Assumptions C184_sata_from_path.
