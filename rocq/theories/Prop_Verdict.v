(** C183: on a drive that answers Authenticate by the book - TRUE to the PIN, FALSE to anything else - Session.Authenticate fails exactly with the PIN and reports
    success for everything else; with password hashing on (the default), and PINs of at most 32 bytes, it reports success for every password. *)
From Verif Require Import Base M_Buffer M_Struc M_Ata M_TcgToken M_TcgCommand M_TcgDevice M_TcgSession M_DriveHandle M_Cdb M_SgDriver M_SgHandle M_NvmeLinux M_Strings M_LinuxInfo M_LinuxFactory
  M_LinuxSystem M_TcgOnDrive Spec_Drive P_DriveHandle P_Identity Prop_Drive Spec_LinuxFactory P_LinuxFactory Prop_LinuxFactory Spec_NvmeLinux Spec_Sg P_Sg Prop_Sg
  Prop_NvmeLinux Prop_SgHandle Spec_Tcg Spec_TcgCommand Spec_TcgClient Spec_TcgSession P_TcgSession Spec_TcgOnDrive Prop_TcgDevice Prop_TcgSession P_TcgOnDrive Prop_TcgOnDrive Spec_LinuxSystem P_LinuxSystem Prop_LinuxSystem
  Prop_LinuxTcg Spec_Conform P_Conform Prop_Conform Spec_NvmeConform P_NvmeConform Prop_NvmeConform Spec_Challenge P_Challenge Prop_Challenge Spec_Verdict.

(** The packet asks the drive to judge one byte string for one authority. *)
Theorem C183_one_reading : forall p ch ch' who who', authenticates p ch who -> authenticates p ch' who' -> ch = ch' /\ who = who'.
Proof.
  intros p ch ch' who who' (hd & a & rest & Lh & Lw & Ha & E) (hd' & a' & rest' & Lh' & Lw' & Ha' & E'). rewrite E in E'.
  apply app_same_length in E' as [_ E']; [|congruence]. cbn [app] in E'. injection E' as E'.
  apply app_same_length in E' as [-> E']; [|congruence]. injection E' as E'.
  destruct (bytes_atom_unique _ _ _ _ _ _ Ha Ha' E') as [-> _]. auto.
Qed.
Print Assumptions C183_one_reading.

(** One Authenticate: the verdict is read backwards. *)
Theorem C183_authenticate : forall E d s auth ch com h hv tv verdict,
  env_ok E -> is_any_ssc d = true -> get_base_com_id d = Ok com -> com < 2 ^ 16 -> numbers s hv tv -> wf ch -> wf auth -> blen auth <= 50000 ->
  replies E com (frame hv tv com (authenticate_payload auth (credential_of (e_pbkdf2 E) (get_serial d) (s_nohash s) ch))) h (boolean_result verdict) ->
  snd (authenticate E d s auth ch h) = if verdict then Err (EFmt "authentication failed: %d" 1) else Ok tt.
Proof.
  intros E d s auth ch com h hv tv verdict HE Hs Hc Hc16 Hn Wch Wau Lau R.
  pose proof (auth_framed E d s ch auth hv tv com HE Hs Hn Hc16 Wch Wau Lau) as F. rewrite <- F in R.
  destruct (exec_replies E d _ com h _ HE Hs Hc R) as (t & resp & X & Tk & Pay).
  assert (Acc : accepted resp).
  { refine (accepted_tokens [Ctl 0xF0; Tiny false (if verdict then 1 else 0); Ctl 0xF1] _ _ resp Tk Pay); [discriminate|intros d0 r0 Q; discriminate Q]. }
  assert (Sn : send_command E d s (authenticate_command E d s auth ch) h = (h ++ t, Ok (Some resp, None))).
  { apply (C22_success_means_accepted E d s _ com h (h ++ t) (Some resp) HE Hc). exists resp. auto. }
  rewrite (auth_result E d s auth ch com h _ resp HE Hc Sn). cbn [snd]. rewrite Tk. destruct verdict; reflexivity.
Qed.
Print Assumptions C183_authenticate.

(** A refusal (non-zero status) is reported with its status. *)
Theorem C183_authenticate_refused : forall E d s auth ch com h hv tv st,
  env_ok E -> is_any_ssc d = true -> get_base_com_id d = Ok com -> com < 2 ^ 16 -> numbers s hv tv -> wf ch -> wf auth -> blen auth <= 50000 ->
  replies E com (frame hv tv com (authenticate_payload auth (credential_of (e_pbkdf2 E) (get_serial d) (s_nohash s) ch))) h (no_result st) -> 1 <= st < 64 ->
  snd (authenticate E d s auth ch h) = Err (ETcg st).
Proof.
  intros E d s auth ch com h hv tv st HE Hs Hc Hc16 Hn Wch Wau Lau R [L1 L2].
  pose proof (auth_framed E d s ch auth hv tv com HE Hs Hn Hc16 Wch Wau Lau) as F. rewrite <- F in R.
  destruct (exec_replies E d _ com h _ HE Hs Hc R) as (t & resp & X & Tk & Pay).
  destruct (tokens_status [Ctl 0xF0; Ctl 0xF1] st ltac:(discriminate) L2 ltac:(discriminate) resp Tk Pay) as (E1 & E2 & E3).
  destruct (C24_status_reported E d s (authenticate_command E d s auth ch) com h (h ++ t) resp [st] st HE Hc X Pay E2 E1 E3 ltac:(lia)) as [Sn _].
  unfold authenticate. rewrite Sn. reflexivity.
Qed.
Print Assumptions C183_authenticate_refused.

Lemma judged E d com sp who pw plain h pin hv tv cred :
  env_ok E -> is_any_ssc d = true -> get_base_com_id d = Ok com -> com < 2 ^ 16 -> wf sp -> List.length sp = 8%nat -> wf who -> List.length who = 8%nat -> wf pw ->
  credential_of (e_pbkdf2 E) (get_serial d) plain pw = Some cred -> wf cred -> 1 <= blen cred <= 400 ->
  judges E com h sp who pin hv tv ->
  open_and_authenticate E d plain sp who pw h = Some (if same cred pin then Err (EFmt "authentication failed: %d" 1) else Ok tt).
Proof.
  intros HE Hs Hc Hc16 Wsp Lsp Wwho Lwho Wp Cr Wc Lc ((ah & at_ & more & Uh & Ut & R) & Rg).
  assert (Wf8 : wf (uid8 (repeat 255 8)) /\ blen (uid8 (repeat 255 8)) <= 50000)
    by (split; [repeat (apply wf_cons; split; [reflexivity|]); apply wf_nil|vm_compute; discriminate]).
  destruct (C179_start E d (set_no_hash_password new_session plain) sp [] (AUid (repeat 255 8)) com h 0 0 ah hv at_ tv more
              HE Hs Hc Hc16 ltac:(split; reflexivity) Wsp Lsp wf_nil (proj1 Wf8) (proj2 Wf8) R Uh Ut) as (s1 & t1 & E1 & N1 & Nh & k1 & Sd).
  cbv zeta in Sd. cbn [s_nohash set_no_hash_password] in Sd, Nh. subst t1. unfold open_and_authenticate. rewrite E1. f_equal.
  apply (C183_authenticate E d s1 (uid8 who) pw com _ hv tv (same cred pin) HE Hs Hc Hc16 N1 Wp).
  - unfold uid8. apply wf_cons. split; [reflexivity|exact Wwho].
  - unfold uid8, blen. cbn [List.length]. rewrite Lwho. vm_compute. discriminate.
  - rewrite Nh, Cr. exact (Rg k1 cred Wc Lc).
Qed.
Lemma same_spec a b : same a b = true <-> a = b.
Proof. unfold same. destruct (list_eq_dec N.eq_dec a b); split; auto; discriminate. Qed.
Lemma same_false a b : a <> b -> same a b = false.
Proof. intros H. unfold same. destruct (list_eq_dec N.eq_dec a b); [contradiction|reflexivity]. Qed.

(** A session and an Authenticate in it, with the password itself as challenge: nil exactly for the wrong passwords. *)
Theorem C183_backwards : forall E d com sp who pw h pin hv tv,
  env_ok E -> is_any_ssc d = true -> get_base_com_id d = Ok com -> com < 2 ^ 16 -> wf sp -> List.length sp = 8%nat -> wf who -> List.length who = 8%nat -> wf pw -> 1 <= blen pw <= 400 ->
  judges E com h sp who pin hv tv ->
  (open_and_authenticate E d true sp who pw h = Some (Ok tt) <-> pw <> pin)
  /\ (pw = pin -> open_and_authenticate E d true sp who pw h = Some (Err (EFmt "authentication failed: %d" 1))).
Proof.
  intros E d com sp who pw h pin hv tv HE Hs Hc Hc16 Wsp Lsp Wwho Lwho Wp Lp J.
  rewrite (judged E d com sp who pw true h pin hv tv pw HE Hs Hc Hc16 Wsp Lsp Wwho Lwho Wp (psid_cred _ _ _ (proj1 Lp)) Wp Lp J).
  destruct (same pw pin) eqn:Q.
  - apply same_spec in Q. subst pw. split; [split; [discriminate|intros X; now elim X]|reflexivity].
  - assert (Ne : pw <> pin) by (intros X; apply same_spec in X; congruence). split; [split; auto|intros X; now elim Ne].
Qed.
Print Assumptions C183_backwards.

(** With hashing (the default) and a PIN of at most 32 bytes: nil for every password. *)
Theorem C183_hashed_always : forall E d com sp who pw h pin hv tv,
  env_ok E -> is_any_ssc d = true -> get_base_com_id d = Ok com -> com < 2 ^ 16 -> wf sp -> List.length sp = 8%nat -> wf who -> List.length who = 8%nat -> wf pw -> pw <> [] -> blen pin <= 32 ->
  judges E com h sp who pin hv tv -> open_and_authenticate E d false sp who pw h = Some (Ok tt).
Proof.
  intros E d com sp who pw h pin hv tv HE Hs Hc Hc16 Wsp Lsp Wwho Lwho Wp Np Lpin J.
  destruct (proj2 (proj2 HE) (firstn 32 pw) (get_serial d)) as [Lk Wk].
  set (cred := [0xD0; 32] ++ e_pbkdf2 E (firstn 32 pw) (get_serial d)).
  assert (Lc : blen cred = 34) by (unfold cred, blen; cbn [List.length app]; rewrite Lk; reflexivity).
  assert (Cr : credential_of (e_pbkdf2 E) (get_serial d) false pw = Some cred) by (unfold credential_of; destruct pw; [now elim Np|reflexivity]).
  assert (Wc : wf cred) by (unfold cred; cbn [app]; do 2 (apply wf_cons; split; [reflexivity|]); exact Wk).
  rewrite (judged E d com sp who pw false h pin hv tv cred HE Hs Hc Hc16 Wsp Lsp Wwho Lwho Wp Cr Wc ltac:(rewrite Lc; split; discriminate) J).
  rewrite (same_false cred pin); [reflexivity|]. intros X. rewrite <- X, Lc in Lpin. apply Lpin. reflexivity.
Qed.
Print Assumptions C183_hashed_always.

(** ---- an NVMe drive on Linux ---- *)
Lemma open_packet_wf com sp : wf sp -> wf (open_packet com sp).
Proof.
  intros W. unfold open_packet. apply frame_wf. apply (start_payload_wf (fun _ _ => zeros 32) [] true [] sp []); auto; try apply wf_nil.
  intros _ _. split; [reflexivity|apply wf_zeros].
Qed.
Lemma judge_packet_wf com hv tv who ch : wf who -> wf ch -> wf (judge_packet com hv tv who ch).
Proof.
  intros W Wc. unfold judge_packet. apply frame_wf. unfold authenticate_payload. apply method_call_wf; [unfold uid8; wf_lit|wf_lit|].
  rewrite !wf_app. repeat split; [unfold uid8; apply wf_cons; split; [reflexivity|exact W]|wf_lit|now apply credential_atom_wf|wf_lit].
Qed.
Lemma nvme_judges_env K fd A kh identity p h0 clock kdf heap fuel com sp who pin n hv tv :
  let E := drive_env (nv_drv K fd A kh identity) p h0 clock kdf heap fuel in
  over_nvme p -> (forall k, A k < 2 ^ 64) -> (n < fuel)%nat -> fast_enough clock com n -> com < 2 ^ 16 -> wf sp -> wf who ->
  nvme_judges K fd com (nv_replay K fd A kh h0) n sp who pin hv tv -> judges E com [] sp who pin hv tv.
Proof.
  intros E Hp HA Hf Ck Hc16 Wsp Wwho ((ah & at_ & more & Uh & Ut & G1) & G2).
  assert (Ls : List.length (open_packet com sp) = 512%nat) by (unfold open_packet; apply frame_length).
  pose proof (open_packet_wf com sp Wsp) as Ws. set (start := open_packet com sp) in *. split.
  - exists ah, at_, more. split; [exact Uh|]. split; [exact Ut|]. fold start.
    exact (nvme_replies_env K fd A kh identity p h0 clock kdf heap fuel com start [] n _ Hp HA Hc16 Ls Ws ltac:(constructor) Hf Ck G1).
  - intros k ch Wc Lc. fold start. cbn [app].
    destruct (exchange_ioctls K fd A kh identity p h0 com start k Hp HA Hc16 Ls Ws) as (c & rs & Eh & Sc & Rr & _).
    assert (Lj : List.length (judge_packet com hv tv who ch) = 512%nat) by (unfold judge_packet; apply frame_length).
    refine (nvme_replies_env K fd A kh identity p h0 clock kdf heap fuel com (judge_packet com hv tv who ch) (exchange com start k) n _ Hp HA Hc16 Lj (judge_packet_wf com hv tv who ch Wwho Wc) (exchange_typed _ _ _ Hc16 Ls Ws) Hf Ck _).
    rewrite Eh. exact (G2 c rs ch Sc Rr Wc Lc).
Qed.

Theorem C183_from_path : forall S h path h' x fd ans fs data mem d clock kdf heap fuel sp who pin pw n hv tv V,
  addresses_ok S -> w_open (sy_world S) (h ++ [LOpen path]) = inr fd -> open_by_path (linux S) h path = (h', Ok x) ->
  l_driver_name x = str "LinuxNvmeDriver" ->
  let at_ := at_nvme h path fd in
  let K := sy_nvme S at_ in
  let opening := nvme_ioctls S at_ x in
  (forall k, wf (na_in (K k))) -> (forall j, heap j < 256) -> (forall y s, List.length (kdf y s) = 32%nat /\ wf (kdf y s)) ->
  nv_succeeded (K opening) -> delivered (zeros 2048) (na_in (K opening)) ans -> level0_answer ans fs ->
  listed 0x0200 fs = false -> last_listed 0x0203 fs = Some data -> (8 <= List.length data)%nat ->
  device_of x mem = Ok d -> l_drv x = Some V ->
  (n < fuel)%nat -> fast_enough clock (be16_at 4 data) n ->
  wf sp -> List.length sp = 8%nat -> wf who -> List.length who = 8%nat -> wf pw -> 1 <= blen pw <= 400 ->
  nvme_judges K fd (be16_at 4 data) opening n sp who pin hv tv ->
  let outcome plain := open_and_authenticate (drive_env V (l_dh x) (l_calls x) clock kdf heap fuel) d plain sp who pw [] in
  (pw = pin -> outcome true = Some (Err (EFmt "authentication failed: %d" 1))) /\ (pw <> pin -> outcome true = Some (Ok tt))
  /\ (blen pin <= 32 -> outcome false = Some (Ok tt)).
Proof.
  intros S h path h' x fd ans fs data mem d clock kdf heap fuel sp who pin pw n hv tv V HS Ew H Hn at_ K opening HK Hh Hkdf Hs Da L0 Lo Ll H8 Hd HV Hf Ck Wsp Lsp Wwho Lwho Wp Lp J outcome.
  destruct (opened_nvme_device S h path h' x fd ans fs data mem d HS Ew H Hn HK Hs Da L0 Lo Ll H8 Hd) as (kh & id & Ho & Ed & Eo & Hssc & Hcom & H16). fold at_ K opening in Ed, Eo.
  rewrite Ed in HV. injection HV as <-. rewrite <- Eo in J.
  pose proof (nvme_judges_env K fd (sy_nvme_addr S at_) kh id (l_dh x) (l_calls x) clock kdf heap fuel (be16_at 4 data) sp who pin n hv tv Ho (proj1 HS _) Hf Ck H16 Wsp Wwho J) as J'.
  cbv zeta in J'. unfold outcome. set (E := drive_env _ _ _ clock kdf heap fuel) in *.
  assert (HE : env_ok E) by (apply drive_env_ok; [apply nvme_bytes_out; first [exact Ho|exact (proj1 HS _)|exact HK]|exact Hh|exact Hkdf]).
  destruct (C183_backwards E d (be16_at 4 data) sp who pw [] pin hv tv HE Hssc Hcom H16 Wsp Lsp Wwho Lwho Wp Lp J') as [B1 B2].
  split; [exact B2|]. split; [apply B1|]. intros L32.
  apply (C183_hashed_always E d (be16_at 4 data) sp who pw [] pin hv tv HE Hssc Hcom H16 Wsp Lsp Wwho Lwho Wp); auto. intros ->. apply (proj1 Lp). reflexivity.
Qed.
Print Assumptions C183_from_path.
