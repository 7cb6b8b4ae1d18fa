(** C185, continued: the same on a Linux NVMe and a Linux SATA drive, from OpenByPath on. *)
From Verif Require Import Base M_Buffer M_Struc M_Ata M_TcgToken M_TcgCommand M_TcgDevice M_TcgSession M_DriveHandle M_Cdb M_SgDriver M_SgHandle M_NvmeLinux M_Strings M_LinuxInfo M_LinuxFactory
  M_LinuxSystem M_TcgOnDrive Spec_Drive P_DriveHandle P_Identity Prop_Drive Spec_LinuxFactory P_LinuxFactory Prop_LinuxFactory Spec_NvmeLinux Spec_Sg P_Sg Prop_Sg
  Prop_NvmeLinux Prop_SgHandle Spec_Tcg Spec_TcgCommand Spec_TcgClient Spec_TcgSession P_TcgToken P_TcgSession Spec_TcgOnDrive Prop_TcgDevice Prop_TcgSession P_TcgOnDrive Prop_TcgOnDrive Spec_LinuxSystem P_LinuxSystem Prop_LinuxSystem
  Prop_LinuxTcg Spec_Conform P_Conform Prop_Conform Spec_NvmeConform P_NvmeConform Prop_NvmeConform Spec_Challenge P_Challenge Prop_Challenge Spec_LinuxSata Prop_LinuxSataTcg Spec_SataConform P_SataConform Prop_SataConform
  Prop_SidConform Spec_TableConform Prop_TableConform.

Lemma number_atom_wf v : v < 2 ^ 16 -> wf (encode (number_atom v)).
Proof.
  intros H. apply wf_encode. unfold number_atom.
  destruct (N.ltb_spec v 64) as [L|L]; [exact L|]. destruct (N.ltb_spec v (2 ^ 8)); [|destruct (N.ltb_spec v (2 ^ 16)) as [B|B]; [|exfalso; apply (N.lt_irrefl v); eapply N.lt_le_trans; eassumption]].
  all: cbn [atom_ok]; split; [apply be_bytes_wf|]; unfold blen; rewrite be_bytes_length; lia.
Qed.
Lemma query_packet_facts com hv tv q : query_ok q -> List.length (query_packet com hv tv q) = 512%nat /\ wf (query_packet com hv tv q).
Proof.
  intros (Wq & Lq & Bf & Bl). unfold query_packet. split; [apply frame_length|]. apply frame_wf. unfold get_payload. apply method_call_wf; [apply wf_cons; split; [reflexivity|exact Wq]|wf_lit|].
  pose proof (number_atom_wf _ Bf). pose proof (number_atom_wf _ Bl).
  repeat (apply wf_app; split); try assumption; wf_lit.
Qed.

Lemma nvme_reads_env K fd A kh identity p h0 clock kdf heap fuel com hv tv n k qs rs :
  let V := nv_drv K fd A kh identity in
  let E := drive_env V p h0 clock kdf heap fuel in
  over_nvme p -> (forall j, A j < 2 ^ 64) -> com < 2 ^ 16 -> (n < fuel)%nat -> fast_enough clock com n -> Forall query_ok qs ->
  nvme_reads K fd com hv tv n k qs rs -> forall h, k = nv_replay K fd A kh (driver_calls V p h0 h) -> Forall typed (commands h) -> answers_reads E com hv tv h qs rs.
Proof.
  intros V E Hp HA Hc16 Hf Ck Hq R. induction R as [k|k q r qs rs R1 _ IH]; intros h -> Th; [constructor|].
  inversion Hq as [|? ? Q1 Q2]; subst. destruct (query_packet_facts com hv tv q Q1) as [L W]. constructor.
  - exact (nvme_replies_env K fd A kh identity p h0 clock kdf heap fuel com _ h n _ Hp HA Hc16 L W Th Hf Ck R1).
  - intros j. destruct (exchange_ioctls K fd A kh identity p (driver_calls V p h0 h) com (query_packet com hv tv q) j Hp HA Hc16 L W) as (c & ks & Eh & Sc & Rr & _).
    apply (IH c ks Sc Rr Q2).
    + rewrite driver_calls_app. symmetry. exact Eh.
    + rewrite commands_app. apply Forall_app. split; [exact Th|]. apply exchange_typed; assumption.
Qed.
Lemma sata_reads_env K A kh identity p h0 clock kdf heap fuel com hv tv n k qs rs :
  let V := sg_drv K A kh identity in
  let E := drive_env V p h0 clock kdf heap fuel in
  over_sg p -> takes_security K -> com < 2 ^ 16 -> (n < fuel)%nat -> fast_enough clock com n -> Forall query_ok qs ->
  sata_reads K com hv tv n k qs rs -> forall h, k = sg_replay K A kh (driver_calls V p h0 h) -> Forall typed (commands h) -> answers_reads E com hv tv h qs rs.
Proof.
  intros V E Hp HT Hc16 Hf Ck Hq R. induction R as [k|k q r qs rs R1 _ IH]; intros h -> Th; [constructor|].
  inversion Hq as [|? ? Q1 Q2]; subst. destruct (query_packet_facts com hv tv q Q1) as [L W]. constructor.
  - exact (sata_replies_env K A kh identity p h0 clock kdf heap fuel com _ h n _ Hp HT Hc16 L W Th Hf Ck R1).
  - intros j. destruct (exchange_requests K A kh identity p (driver_calls V p h0 h) com (query_packet com hv tv q) j Hp HT Hc16 L W) as (c & ks & Eh & Sc & Rr & _).
    apply (IH c ks Sc Rr Q2).
    + rewrite driver_calls_app. symmetry. exact Eh.
    + rewrite commands_app. apply Forall_app. split; [exact Th|]. apply exchange_typed; assumption.
Qed.

(** Linux, NVMe: the session is opened - with or without a password, hashed or not - and every read shows what the drive answered. *)
Theorem C185_nvme_from_path : forall S h path h' x fd ans fs data mem d clock kdf heap fuel sp ch who plain n hv tv qs rs V,
  addresses_ok S -> w_open (sy_world S) (h ++ [LOpen path]) = inr fd -> open_by_path (linux S) h path = (h', Ok x) ->
  l_driver_name x = str "LinuxNvmeDriver" ->
  let at_ := at_nvme h path fd in
  let K := sy_nvme S at_ in
  let opening := nvme_ioctls S at_ x in
  (forall k, wf (na_in (K k))) -> (forall j, heap j < 256) -> (forall y s, List.length (kdf y s) = 32%nat /\ wf (kdf y s)) ->
  nv_succeeded (K opening) -> delivered (zeros 2048) (na_in (K opening)) ans -> level0_answer ans fs ->
  listed 0x0200 fs = false -> last_listed 0x0203 fs = Some data -> (8 <= List.length data)%nat ->
  device_of x mem = Ok d -> l_drv x = Some V ->
  (n < fuel)%nat -> fast_enough clock (be16_at 4 data) n ->
  wf sp -> List.length sp = 8%nat -> wf ch -> wf who -> List.length who = 8%nat -> Forall query_ok qs -> Forall reply_ok rs ->
  let E := drive_env V (l_dh x) (l_calls x) clock kdf heap fuel in
  let credential := credential_of kdf (i_serial (p_info (l_dh x))) plain ch in
  nvme_lets_read K fd (be16_at 4 data) opening n (session_start_packet (be16_at 4 data) sp credential who) hv tv qs rs ->
  exists s h1, session_start E d (set_no_hash_password new_session plain) sp ch (AUid who) [] = (s, h1, Ok tt) /\ Forall2 shows (read_all E d s h1 qs) rs.
Proof.
  intros S h path h' x fd ans fs data mem d clock kdf heap fuel sp ch who plain n hv tv qs rs V HS Ew H Hn at_ K opening HK Hh Hkdf Hs Da L0 Lo Ll H8 Hd HV Hf Ck Wsp Lsp Wch Ww Lw Hq Hr E credential Cs.
  destruct (opened_nvme_device S h path h' x fd ans fs data mem d HS Ew H Hn HK Hs Da L0 Lo Ll H8 Hd) as (kh & id & Ho & Ed & Eo & Hssc & Hcom & H16). fold at_ K opening in Ed, Eo.
  rewrite Ed in HV. injection HV as <-. rewrite <- Eo in Cs. destruct Cs as ((ah & a2 & more & Uh & Ut & G1) & G2).
  set (start := session_start_packet _ _ _ _) in *.
  assert (Ls : List.length start = 512%nat) by (unfold start, session_start_packet; apply frame_length).
  assert (Ws : wf start) by (unfold start, session_start_packet; apply frame_wf; apply start_payload_wf; try assumption; apply (uid8_ok who Ww Lw)).
  assert (HE : env_ok E) by (apply drive_env_ok; [apply nvme_bytes_out; first [exact Ho|exact HK|exact (proj1 HS _)]|exact Hh|exact Hkdf]).
  assert (Sr : start = frame 0 0 (be16_at 4 data) (start_payload sp (credential_of (e_pbkdf2 E) (get_serial d) (s_nohash (set_no_hash_password new_session plain)) ch) (uid8 who)))
    by (unfold start, session_start_packet, credential; rewrite (device_serial x mem d Hd); reflexivity).
  apply (C185_open_and_read E d (set_no_hash_password new_session plain) sp ch who (be16_at 4 data) [] 0 0 ah hv a2 tv more qs rs HE Hssc Hcom H16); try assumption; try (split; reflexivity).
  - rewrite <- Sr. exact (nvme_replies_env K fd (sy_nvme_addr S at_) kh id (l_dh x) (l_calls x) clock kdf heap fuel _ start [] n _ Ho (proj1 HS _) H16 Ls Ws ltac:(constructor) Hf Ck G1).
  - intros k. rewrite <- Sr. cbn [app].
    destruct (exchange_ioctls K fd (sy_nvme_addr S at_) kh id (l_dh x) (l_calls x) (be16_at 4 data) start k Ho (proj1 HS _) H16 Ls Ws) as (c & ks & Eh & Sc & Rr & _).
    apply (nvme_reads_env K fd (sy_nvme_addr S at_) kh id (l_dh x) (l_calls x) clock kdf heap fuel (be16_at 4 data) hv tv n _ qs rs Ho (proj1 HS _) H16 Hf Ck Hq (G2 c ks Sc Rr)).
    + symmetry. exact Eh.
    + apply exchange_typed; assumption.
Qed.
Print Assumptions C185_nvme_from_path.

(** Linux, SATA. *)
Theorem C185_sata_from_path : forall S h path h' x fd ans fs data mem d clock kdf heap fuel sp ch who plain n hv tv qs rs V,
  addresses_ok S -> w_open (sy_world S) (h ++ [LOpen path]) = inr fd -> open_by_path (linux S) h path = (h', Ok x) ->
  no_nvme (sy_nvme S (at_nvme h path fd)) -> l_driver_name x = str "LinuxScsiDriver" ->
  let at_ := at_sg h path fd in
  let K := sy_sg S at_ in
  let opening := sg_ioctls S at_ x in
  takes_security K -> (forall k, wf (an_in (K k))) -> (forall j, heap j < 256) -> (forall y s, List.length (kdf y s) = 32%nat /\ wf (kdf y s)) ->
  delivered (zeros 2048) (an_in (K opening)) ans -> level0_answer ans fs ->
  listed 0x0200 fs = false -> last_listed 0x0203 fs = Some data -> (8 <= List.length data)%nat ->
  device_of x mem = Ok d -> l_drv x = Some V ->
  (n < fuel)%nat -> fast_enough clock (be16_at 4 data) n ->
  wf sp -> List.length sp = 8%nat -> wf ch -> wf who -> List.length who = 8%nat -> Forall query_ok qs -> Forall reply_ok rs ->
  let E := drive_env V (l_dh x) (l_calls x) clock kdf heap fuel in
  let credential := credential_of kdf (i_serial (p_info (l_dh x))) plain ch in
  sata_lets_read K (be16_at 4 data) opening n (session_start_packet (be16_at 4 data) sp credential who) hv tv qs rs ->
  exists s h1, session_start E d (set_no_hash_password new_session plain) sp ch (AUid who) [] = (s, h1, Ok tt) /\ Forall2 shows (read_all E d s h1 qs) rs.
Proof.
  intros S h path h' x fd ans fs data mem d clock kdf heap fuel sp ch who plain n hv tv qs rs V HS Ew H Nn Hn at_ K opening HT HK Hh Hkdf Da L0 Lo Ll H8 Hd HV Hf Ck Wsp Lsp Wch Ww Lw Hq Hr E credential Cs.
  destruct (opened_sata_device S h path h' x fd ans fs data mem d HS Ew H Nn Hn HT HK Da L0 Lo Ll H8 Hd) as (kh & id & Ho & Ed & Eo & Hssc & Hcom & H16). fold at_ K opening in Ed, Eo.
  rewrite Ed in HV. injection HV as <-. rewrite <- Eo in Cs. destruct Cs as ((ah & a2 & more & Uh & Ut & G1) & G2).
  set (start := session_start_packet _ _ _ _) in *.
  assert (Ls : List.length start = 512%nat) by (unfold start, session_start_packet; apply frame_length).
  assert (Ws : wf start) by (unfold start, session_start_packet; apply frame_wf; apply start_payload_wf; try assumption; apply (uid8_ok who Ww Lw)).
  assert (HE : env_ok E) by (apply drive_env_ok; [apply sg_bytes_out; first [exact Ho|exact HK]|exact Hh|exact Hkdf]).
  assert (Sr : start = frame 0 0 (be16_at 4 data) (start_payload sp (credential_of (e_pbkdf2 E) (get_serial d) (s_nohash (set_no_hash_password new_session plain)) ch) (uid8 who)))
    by (unfold start, session_start_packet, credential; rewrite (device_serial x mem d Hd); reflexivity).
  apply (C185_open_and_read E d (set_no_hash_password new_session plain) sp ch who (be16_at 4 data) [] 0 0 ah hv a2 tv more qs rs HE Hssc Hcom H16); try assumption; try (split; reflexivity).
  - rewrite <- Sr. exact (sata_replies_env K (sy_sg_addr S at_) kh id (l_dh x) (l_calls x) clock kdf heap fuel _ start [] n _ Ho HT H16 Ls Ws ltac:(constructor) Hf Ck G1).
  - intros k. rewrite <- Sr. cbn [app].
    destruct (exchange_requests K (sy_sg_addr S at_) kh id (l_dh x) (l_calls x) (be16_at 4 data) start k Ho HT H16 Ls Ws) as (c & ks & Eh & Sc & Rr & _).
    apply (sata_reads_env K (sy_sg_addr S at_) kh id (l_dh x) (l_calls x) clock kdf heap fuel (be16_at 4 data) hv tv n _ qs rs Ho HT H16 Hf Ck Hq (G2 c ks Sc Rr)).
    + symmetry. exact Eh.
    + apply exchange_typed; assumption.
Qed.
Print Assumptions C185_sata_from_path.
