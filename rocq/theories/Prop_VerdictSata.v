(** C183 on a Linux SATA drive, from the device path. *)
From Verif Require Import Base M_Buffer M_Struc M_Ata M_TcgToken M_TcgCommand M_TcgDevice M_TcgSession M_DriveHandle M_Cdb M_SgDriver M_SgHandle M_NvmeLinux M_Strings M_LinuxInfo M_LinuxFactory
  M_LinuxSystem M_TcgOnDrive Spec_Drive P_DriveHandle P_Identity Prop_Drive Spec_LinuxFactory P_LinuxFactory Prop_LinuxFactory Spec_NvmeLinux Spec_Sg P_Sg Prop_Sg
  Prop_NvmeLinux Prop_SgHandle Spec_Tcg Spec_TcgCommand Spec_TcgClient Spec_TcgSession P_TcgSession Spec_TcgOnDrive Prop_TcgDevice Prop_TcgSession P_TcgOnDrive Prop_TcgOnDrive Spec_LinuxSystem P_LinuxSystem Prop_LinuxSystem
  Prop_LinuxTcg Spec_Conform P_Conform Prop_Conform Spec_NvmeConform P_NvmeConform Prop_NvmeConform Spec_Challenge P_Challenge Prop_Challenge Spec_LinuxSata Prop_LinuxSataTcg Spec_SataConform P_SataConform Prop_SataConform Spec_Verdict Prop_Verdict Spec_VerdictSata.

Lemma sata_judges_env K A kh identity p h0 clock kdf heap fuel com sp who pin n hv tv :
  let E := drive_env (sg_drv K A kh identity) p h0 clock kdf heap fuel in
  over_sg p -> takes_security K -> (n < fuel)%nat -> fast_enough clock com n -> com < 2 ^ 16 -> wf sp -> wf who ->
  sata_judges K com (sg_replay K A kh h0) n sp who pin hv tv -> judges E com [] sp who pin hv tv.
Proof.
  intros E Hp HT Hf Ck Hc16 Wsp Wwho ((ah & at_ & more & Uh & Ut & G1) & G2).
  assert (Ls : List.length (open_packet com sp) = 512%nat) by (unfold open_packet; apply frame_length).
  pose proof (open_packet_wf com sp Wsp) as Ws. set (start := open_packet com sp) in *. split.
  - exists ah, at_, more. split; [exact Uh|]. split; [exact Ut|]. fold start.
    exact (sata_replies_env K A kh identity p h0 clock kdf heap fuel com start [] n _ Hp HT Hc16 Ls Ws ltac:(constructor) Hf Ck G1).
  - intros k ch Wc Lc. fold start. cbn [app].
    destruct (exchange_requests K A kh identity p h0 com start k Hp HT Hc16 Ls Ws) as (c & rs & Eh & Sc & Rr & _).
    assert (Lj : List.length (judge_packet com hv tv who ch) = 512%nat) by (unfold judge_packet; apply frame_length).
    refine (sata_replies_env K A kh identity p h0 clock kdf heap fuel com (judge_packet com hv tv who ch) (exchange com start k) n _ Hp HT Hc16 Lj (judge_packet_wf com hv tv who ch Wwho Wc) (exchange_typed _ _ _ Hc16 Ls Ws) Hf Ck _).
    rewrite Eh. exact (G2 c rs ch Sc Rr Wc Lc).
Qed.

Theorem C183_sata_from_path : forall S h path h' x fd ans fs data mem d clock kdf heap fuel sp who pin pw n hv tv V,
  addresses_ok S -> w_open (sy_world S) (h ++ [LOpen path]) = inr fd -> open_by_path (linux S) h path = (h', Ok x) ->
  no_nvme (sy_nvme S (at_nvme h path fd)) -> l_driver_name x = str "LinuxScsiDriver" ->
  let at_ := at_sg h path fd in
  let K := sy_sg S at_ in
  let opening := sg_ioctls S at_ x in
  takes_security K -> (forall k, wf (an_in (K k))) -> (forall j, heap j < 256) -> (forall y s, List.length (kdf y s) = 32%nat /\ wf (kdf y s)) ->
  delivered (zeros 2048) (an_in (K opening)) ans -> level0_answer ans fs ->
  listed 0x0200 fs = false -> last_listed 0x0203 fs = Some data -> (8 <= List.length data)%nat ->
  device_of x mem = Ok d -> l_drv x = Some V ->
  (n < fuel)%nat -> fast_enough clock (be16_at 4 data) n ->
  wf sp -> List.length sp = 8%nat -> wf who -> List.length who = 8%nat -> wf pw -> 1 <= blen pw <= 400 ->
  sata_judges K (be16_at 4 data) opening n sp who pin hv tv ->
  let outcome plain := open_and_authenticate (drive_env V (l_dh x) (l_calls x) clock kdf heap fuel) d plain sp who pw [] in
  (pw = pin -> outcome true = Some (Err (EFmt "authentication failed: %d" 1))) /\ (pw <> pin -> outcome true = Some (Ok tt))
  /\ (blen pin <= 32 -> outcome false = Some (Ok tt)).
Proof.
  intros S h path h' x fd ans fs data mem d clock kdf heap fuel sp who pin pw n hv tv V HS Ew H Nn Hn at_ K opening HT HK Hh Hkdf Da L0 Lo Ll H8 Hd HV Hf Ck Wsp Lsp Wwho Lwho Wp Lp J outcome.
  destruct (opened_sata_device S h path h' x fd ans fs data mem d HS Ew H Nn Hn HT HK Da L0 Lo Ll H8 Hd) as (kh & id & Ho & Ed & Eo & Hssc & Hcom & H16). fold at_ K opening in Ed, Eo.
  rewrite Ed in HV. injection HV as <-. rewrite <- Eo in J.
  pose proof (sata_judges_env K (sy_sg_addr S at_) kh id (l_dh x) (l_calls x) clock kdf heap fuel (be16_at 4 data) sp who pin n hv tv Ho HT Hf Ck H16 Wsp Wwho J) as J'.
  cbv zeta in J'. unfold outcome. set (E := drive_env _ _ _ clock kdf heap fuel) in *.
  assert (HE : env_ok E) by (apply drive_env_ok; [apply sg_bytes_out; first [exact Ho|exact HK|idtac]|exact Hh|exact Hkdf]).
  destruct (C183_backwards E d (be16_at 4 data) sp who pw [] pin hv tv HE Hssc Hcom H16 Wsp Lsp Wwho Lwho Wp Lp J') as [B1 B2].
  split; [exact B2|]. split; [apply B1|]. intros L32.
  apply (C183_hashed_always E d (be16_at 4 data) sp who pw [] pin hv tv HE Hssc Hcom H16 Wsp Lsp Wwho Lwho Wp); auto. intros ->. apply (proj1 Lp). reflexivity.
Qed.
Print Assumptions C183_sata_from_path.
