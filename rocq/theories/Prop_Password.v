(** C175: from a device path to the factory password (MSID), on a complete Linux system. *)
From Verif Require Import Base M_Buffer M_Struc M_Ata M_TcgToken M_TcgCommand M_TcgDevice M_TcgSession M_DriveHandle M_Cdb M_SgDriver M_SgHandle M_NvmeLinux M_Strings M_LinuxInfo M_LinuxFactory
  M_LinuxSystem M_TcgOnDrive Spec_Drive P_DriveHandle P_Identity Prop_Drive Spec_LinuxFactory P_LinuxFactory Prop_LinuxFactory Spec_NvmeLinux Spec_Sg P_Sg Prop_Sg
  Prop_NvmeLinux Prop_SgHandle Spec_Tcg Spec_TcgCommand Spec_TcgClient Spec_TcgSession P_TcgDevice P_TcgSession Spec_TcgOnDrive Prop_TcgDevice P_TcgOnDrive Prop_TcgOnDrive Spec_LinuxSystem P_LinuxSystem Prop_LinuxSystem
  Prop_LinuxTcg Spec_LinuxSata Prop_LinuxSataTcg P_Password M_Sha1 Spec_Sha1 P_Sha1 Prop_Sha1.

(** An NVMe drive opened by path, whose Level 0 answer lists Opal v2 (and not Opal v1) with some ComID, is sent by GetDefaultPassword exactly a
    StartSession without credential and at most one Get of the PIN column of C_PIN_MSID, whatever it answers; no password and no serial number
    goes to the drive; the text returned is the fifth token of an answer the kernel delivered and the drive accepted. *)
Theorem C175_password_of_opened_nvme : forall S h path h' x fd ans fs data mem d clock kdf heap fuel t r,
  addresses_ok S -> w_open (sy_world S) (h ++ [LOpen path]) = inr fd -> open_by_path (linux S) h path = (h', Ok x) ->
  l_driver_name x = str "LinuxNvmeDriver" ->
  let at_ := at_nvme h path fd in
  let K := sy_nvme S at_ in
  let opening := nvme_ioctls S at_ x in
  (forall k, wf (na_in (K k))) -> (forall j, heap j < 256) -> (forall y s, List.length (kdf y s) = 32%nat /\ wf (kdf y s)) ->
  nv_succeeded (K opening) -> delivered (zeros 2048) (na_in (K opening)) ans -> level0_answer ans fs ->
  listed 0x0200 fs = false -> last_listed 0x0203 fs = Some data -> (8 <= List.length data)%nat ->
  device_of x mem = Ok d ->
  forall V, l_drv x = Some V -> get_default_password (drive_env V (l_dh x) (l_calls x) clock kdf heap fuel) d [] = (t, r) ->
  let com := be16_at 4 data in
  let start := frame 0 0 com (start_payload uid_AdminSP None []) in
  let get hsn tsn := frame hsn tsn com (get_payload (uid8 uid_C_PIN_MSID) 3 3) in
  let after := nvme_ioctls S at_ (with_calls x (driver_calls V (l_dh x) (l_calls x) t)) in
  exists calls, after = opening ++ calls /\ Forall (fun c => nc_fd c = fd /\ protocol1 com c) calls
  /\ (nvme_received calls = [start] \/ exists hsn tsn, nvme_received calls = [start; get hsn tsn])
  /\ (forall text, r = Ok text -> exists hsn tsn resp tok, nvme_received calls = [start; get hsn tsn]
        /\ nv_succeeded (K after) /\ delivered (zeros 2048) (na_in (K after)) (r_buf resp) /\ accepted resp
        /\ nth_error (r_tokens resp) 4 = Some tok /\ get_string tok = Ok text).
Proof.
  intros S h path h' x fd ans fs data mem d clock kdf heap fuel t r HS Ew H Hn at_ K opening HK Hh Hkdf Hs Da L0 Lo Ll H8 Hd V HV HR com start get after.
  destruct (nvme_opened S h path h' x fd HS Ew H Hn) as (c1 & c2 & id & ans' & E & _ & _ & _ & Did & T & _ & _ & Da' & G & _ & E1 & Ef & Ho & Ed).
  fold at_ in E, Did, Da', G, E1, Ed. fold K in Did, Da', G, E1, Ed. fold opening in E.
  rewrite E in Hs, Da.
  assert (ans' = ans) by (eapply delivered_unique; eassumption). subst ans'.
  destruct (G Hs) as (_ & _ & R). specialize (R fs L0). destruct R as (_ & _ & _ & _ & R5 & _ & _ & R8 & RR).
  rewrite Ed in HV. injection HV as <-.
  assert (Wans : wf ans) by (eapply delivered_wf; [apply wf_zeros| |exact Da]; apply HK).
  assert (Wd : wf data) by (eapply wf_last_listed; [eapply descriptors_wf; eassumption|exact Ll]).
  unfold device_of in Hd. cbn [get_tcg_level0_info_and_serial fst snd] in Hd.
  rewrite Lo in R5. rewrite (last_listed_listed _ _ _ Ll) in R8.
  pose proof (C18_com_ids _ _ _ _ Hd) as (_ & GC).
  unfold new_tcg_device in Hd. rewrite R5, R8 in Hd. cbv iota in Hd.
  assert (Hd' := Hd). injection Hd' as Hd'.
  destruct (GC 3 0x0203 ltac:(cbn; tauto) ltac:(rewrite <- Hd'; reflexivity)) as (_ & GB & _).
  destruct (GB data ltac:(rewrite (RR 0x0203 ltac:(discriminate)); exact Ll) Wd H8) as (GB' & _).
  pose proof (C117_password_over_nvme K fd (sy_nvme_addr S at_) [c1] id (l_dh x) (l_calls x) clock kdf heap fuel d com t r
    Ho (proj1 HS _) HK Hh Hkdf ltac:(rewrite <- Hd'; reflexivity) GB' (be16_small data Wd) HR) as C. cbv zeta in C.
  unfold after, nvme_ioctls. cbv zeta. cbn [with_calls l_fd l_calls]. fold at_ K. rewrite Ef, E1.
  assert (Eo : nv_replay K fd (sy_nvme_addr S at_) [c1] (l_calls x) = opening).
  { unfold opening, nvme_ioctls. cbv zeta. fold at_ K. rewrite Ef, E1. reflexivity. }
  rewrite Eo in C. exact C.
Qed.
Print Assumptions C175_password_of_opened_nvme.

(** The same for a SATA drive that takes SECURITY PROTOCOL commands. *)
Theorem C175_password_of_opened_sata : forall S h path h' x fd ans fs data mem d clock kdf heap fuel t r,
  addresses_ok S -> w_open (sy_world S) (h ++ [LOpen path]) = inr fd -> open_by_path (linux S) h path = (h', Ok x) ->
  no_nvme (sy_nvme S (at_nvme h path fd)) -> l_driver_name x = str "LinuxScsiDriver" ->
  let at_ := at_sg h path fd in
  let K := sy_sg S at_ in
  let opening := sg_ioctls S at_ x in
  takes_security K ->
  (forall k, wf (an_in (K k))) -> (forall j, heap j < 256) -> (forall y s, List.length (kdf y s) = 32%nat /\ wf (kdf y s)) ->
  delivered (zeros 2048) (an_in (K opening)) ans -> level0_answer ans fs ->
  listed 0x0200 fs = false -> last_listed 0x0203 fs = Some data -> (8 <= List.length data)%nat ->
  device_of x mem = Ok d ->
  forall V, l_drv x = Some V -> get_default_password (drive_env V (l_dh x) (l_calls x) clock kdf heap fuel) d [] = (t, r) ->
  let com := be16_at 4 data in
  let start := frame 0 0 com (start_payload uid_AdminSP None []) in
  let get hsn tsn := frame hsn tsn com (get_payload (uid8 uid_C_PIN_MSID) 3 3) in
  let after := sg_ioctls S at_ (with_calls x (driver_calls V (l_dh x) (l_calls x) t)) in
  exists calls, after = opening ++ calls /\ Forall (sata_protocol1 com) calls
  /\ (sata_received calls = [start] \/ exists hsn tsn, sata_received calls = [start; get hsn tsn])
  /\ (forall text, r = Ok text -> exists hsn tsn resp tok, sata_received calls = [start; get hsn tsn]
        /\ delivered (zeros 2048) (an_in (K after)) (r_buf resp) /\ accepted resp
        /\ nth_error (r_tokens resp) 4 = Some tok /\ get_string tok = Ok text).
Proof.
  intros S h path h' x fd ans fs data mem d clock kdf heap fuel t r HS Ew H Nn Hn at_ K opening HT HK Hh Hkdf Da L0 Lo Ll H8 Hd V HV HR com start get after.
  destruct (sg_opened S h path h' x fd HS Ew H Nn Hn) as (s1 & srest & c1 & rest & id & E & Ac & Did & T & Z0 & G & E1 & Ho & Ed).
  fold at_ in E, Ac, Did, G, E1, Ed. fold K in Ac, Did, G, E1, Ed. fold opening in E.
  assert (Y : succeeded (K (s1 :: srest ++ [c1]))) by (change (s1 :: srest ++ [c1]) with ((s1 :: srest) ++ [c1]); eapply HT; exact Z0).
  destruct (G Y) as (-> & ans' & Da' & _ & _ & R).
  assert (ans' = ans). { rewrite E in Da. cbn [app] in Da. eapply delivered_unique; eassumption. } subst ans'.
  specialize (R fs L0). destruct R as (_ & _ & _ & _ & R5 & _ & _ & R8 & RR).
  rewrite Ed in HV. injection HV as <-. set (V := sg_drv K (sy_sg_addr S at_) (s1 :: srest) id) in *.
  assert (Wans : wf ans) by (eapply delivered_wf; [apply wf_zeros| |exact Da]; apply HK).
  assert (Wd : wf data) by (eapply wf_last_listed; [eapply descriptors_wf; eassumption|exact Ll]).
  unfold device_of in Hd. cbn [get_tcg_level0_info_and_serial fst snd] in Hd.
  rewrite Lo in R5. rewrite (last_listed_listed _ _ _ Ll) in R8.
  pose proof (C18_com_ids _ _ _ _ Hd) as (_ & GC).
  unfold new_tcg_device in Hd. rewrite R5, R8 in Hd. cbv iota in Hd.
  assert (Hd' := Hd). injection Hd' as Hd'.
  destruct (GC 3 0x0203 ltac:(cbn; tauto) ltac:(rewrite <- Hd'; reflexivity)) as (_ & GB & _).
  destruct (GB data ltac:(rewrite (RR 0x0203 ltac:(discriminate)); exact Ll) Wd H8) as (Hc & _). clear GB GC. fold com in Hc.
  assert (Hs : is_any_ssc d = true) by (rewrite <- Hd'; reflexivity).
  assert (Hc16 : com < 2 ^ 16) by (apply be16_small; exact Wd).
  set (E' := drive_env V (l_dh x) (l_calls x) clock kdf heap fuel) in *.
  assert (HE : env_ok E') by (apply drive_env_ok; [now apply sg_bytes_out|exact Hh|exact Hkdf]).
  destruct (password_cases E' d com t r HE Hs Hc Hc16 HR) as (Sh & Ts & Cases). unfold pin_start, pin_get in Cases. fold start in Cases.
  pose proof (shaped_typed com t Hc16 Sh Ts) as Ty.
  assert (L5 : Forall (fun y => x_out y = true -> List.length (x_data y) = 512%nat) (commands t)).
  { rewrite sends_commands in Ts. rewrite Forall_forall in Ts |- *. intros y Hy O. destruct (Ts (x_data y)) as [L _]; [apply in_map; apply filter_In; auto|exact L]. }
  assert (Ne : Forall (fun y => x_data y <> []) (commands t)).
  { rewrite Forall_forall in Sh, L5 |- *. intros y Hy X. destruct (Sh y Hy) as (_ & _ & [O|O]); [|rewrite X in O; discriminate].
    specialize (L5 y Hy O). rewrite X in L5. discriminate. }
  destruct (tcg_over_sata K (sy_sg_addr S at_) (s1 :: srest) id (l_dh x) (l_calls x) t Ho HT Ty Ne) as (calls & Ra & F2). fold V in Ra.
  assert (Eo : sg_replay K (sy_sg_addr S at_) (s1 :: srest) (l_calls x) = opening) by (unfold opening, sg_ioctls; cbv zeta; fold K; now rewrite E1).
  rewrite Eo in Ra.
  assert (Ea : after = sg_replay K (sy_sg_addr S at_) (s1 :: srest) (driver_calls V (l_dh x) (l_calls x) t)).
  { unfold after, sg_ioctls. cbv zeta. cbn [with_calls l_calls]. fold K. now rewrite E1. }
  rewrite Ea. exists calls. split; [exact Ra|].
  assert (Rc : sata_received calls = sends t).
  { rewrite sends_commands. clear - F2. induction F2 as [|y c l l' (Q1 & Q2) _ IH]; [reflexivity|].
    unfold sata_received in *. cbn [filter map]. unfold is_out at 1. unfold is_security in Q1. rewrite Q1. cbn [sc_out].
    destruct (x_out y); [cbn [map]; rewrite (Q2 eq_refl), IH; reflexivity|exact IH]. }
  split.
  { clear - F2 Sh L5. revert Sh L5. induction F2 as [|y c l l' (Q1 & Q2) _ IH]; intros Sh L5; constructor; inversion Sh as [|y0 l0 (P1 & P2 & P3) Sh']; subst y0 l0;
      inversion L5 as [|y0 l0 Hl L5']; subst y0 l0; [|now apply IH].
    exists (x_out y), (blen (x_data y)). unfold is_security in Q1. rewrite Q1, P1, P2. split; [reflexivity|].
    destruct (x_out y); [unfold blen; now rewrite (Hl eq_refl)|]. destruct P3 as [P3|P3]; [discriminate|rewrite P3; vm_compute; reflexivity]. }
  rewrite Rc. split.
  { destruct Cases as [[-> _]|(hs & ts & -> & _)]; [left; reflexivity|right; exists hs, ts; reflexivity]. }
  intros text Hr. destruct Cases as [[_ N]|(hs & ts & Se & Q)]; [now apply N in Hr|]. destruct (Q text Hr) as (resp & tok & t2 & Acc & T4 & Gs & Et & En & Eb).
  exists hs, ts, resp, tok. split; [exact Se|].
  destruct (e_sec E' t) as [e out] eqn:Ess. cbn [fst snd] in En, Eb. rewrite Et in Ess, Ty.
  destruct (answer_over_sata K (sy_sg_addr S at_) (s1 :: srest) id (l_dh x) (l_calls x) clock kdf heap fuel t2 false 1 com (zeros 2048) 5 e out Ho HT Ty ltac:(discriminate) Ess)
    as (_ & B3). rewrite <- Et in B3. fold V in B3. split; [|auto].
  assert (Lz : List.length (zeros 2048) = 2048%nat) by apply repeat_length. rewrite Lz in B3.
  rewrite Eb. destruct B3 as (L & G1 & G2). rewrite Lz in *.
  assert (Eo' : received out = out) by (unfold received; rewrite firstn_all2 by lia; rewrite L; cbn; now rewrite app_nil_r).
  rewrite Eo'. split; [now rewrite ?Lz|]. split; [exact G1|exact G2].
Qed.
Print Assumptions C175_password_of_opened_sata.

(** ---- the real key derivation, from a device path (C173) ---- *)
Lemma wf_trimmed s t : wf s -> trimmed s t -> wf t.
Proof. intros W (a & b & -> & _). rewrite !wf_app in W. tauto. Qed.
Lemma wf_swapped l o : wf l -> word_swapped l o -> wf o.
Proof.
  intros W (L & G). apply Forall_forall. intros b Hb. apply In_nth_error in Hb as (i & Hi).
  assert (Hl : (i < List.length l)%nat) by (rewrite <- L; apply nth_error_Some; congruence).
  rewrite G in Hi by exact Hl. apply nth_error_In in Hi. exact (proj1 (Forall_forall _ _) W _ Hi).
Qed.

(** RevertTPer on an NVMe drive opened by path, with the real key derivation: the credential is
    PBKDF2-HMAC-SHA1 of the password and the serial number of the drive's IDENTIFY data. *)
Theorem C173_revert_of_opened_nvme : forall S h path h' x fd ans fs data mem d clock heap fuel pw (isPsid isAdm : bool) t r,
  addresses_ok S -> w_open (sy_world S) (h ++ [LOpen path]) = inr fd -> open_by_path (linux S) h path = (h', Ok x) ->
  l_driver_name x = str "LinuxNvmeDriver" ->
  let at_ := at_nvme h path fd in
  let K := sy_nvme S at_ in
  let opening := nvme_ioctls S at_ x in
  (forall k, wf (na_in (K k))) -> (forall j, heap j < 256) -> wf pw ->
  nv_succeeded (K opening) -> delivered (zeros 2048) (na_in (K opening)) ans -> level0_answer ans fs ->
  listed 0x0200 fs = false -> last_listed 0x0203 fs = Some data -> (8 <= List.length data)%nat ->
  device_of x mem = Ok d ->
  forall V, l_drv x = Some V -> revert_tper (drive_env V (l_dh x) (l_calls x) clock go_pbkdf2 heap fuel) d pw isPsid isAdm [] = (t, r) ->
  let com := be16_at 4 data in
  let uid := if isPsid then uid_PSID else uid_SID in
  exists id, delivered (zeros 4096) (firstn 4096 (na_in (K (firstn 1 opening)))) id /\
  exists serial, trimmed (slice 4 20 id) serial /\
  let start := frame 0 0 com (start_payload uid_AdminSP (standard_credential serial isPsid pw) (uid8 uid)) in
  let after := nvme_ioctls S at_ (with_calls x (driver_calls V (l_dh x) (l_calls x) t)) in
  exists calls, after = opening ++ calls
  /\ (nvme_received calls = [start] \/ exists hsn tsn, nvme_received calls = [start; frame hsn tsn com revert_payload]).
Proof.
  intros S h path h' x fd ans fs data mem d clock heap fuel pw isPsid isAdm t r HS Ew H Hn at_ K opening HK Hh Wp Hs Da L0 Lo Ll H8 Hd V HV HR com uid.
  destruct (C125_revert_opened_drive S h path h' x fd ans fs data mem d clock go_pbkdf2 heap fuel pw isPsid isAdm t r HS Ew H Hn HK Hh go_pbkdf2_shape Wp Hs Da L0 Lo Ll H8 Hd V HV HR)
    as (id & Did & serial & T & C). cbv zeta in C.
  assert (Ws : wf serial).
  { eapply wf_trimmed; [|exact T]. apply wf_slice. eapply delivered_wf; [apply wf_zeros| |exact Did]. apply wf_firstn, HK. }
  rewrite (credential_std serial isPsid pw Ws Wp) in C. destruct C as (calls & C1 & _ & C3 & _).
  exists id. split; [exact Did|]. exists serial. split; [exact T|]. exists calls. split; [exact C1|exact C3].
Qed.
Print Assumptions C173_revert_of_opened_nvme.

(** The same on a SATA drive. *)
Theorem C173_revert_of_opened_sata : forall S h path h' x fd ans fs data mem d clock heap fuel pw (isPsid isAdm : bool) t r,
  addresses_ok S -> w_open (sy_world S) (h ++ [LOpen path]) = inr fd -> open_by_path (linux S) h path = (h', Ok x) ->
  no_nvme (sy_nvme S (at_nvme h path fd)) -> l_driver_name x = str "LinuxScsiDriver" ->
  let at_ := at_sg h path fd in
  let K := sy_sg S at_ in
  let opening := sg_ioctls S at_ x in
  takes_security K ->
  (forall k, wf (an_in (K k))) -> (forall j, heap j < 256) -> wf pw ->
  delivered (zeros 2048) (an_in (K opening)) ans -> level0_answer ans fs ->
  listed 0x0200 fs = false -> last_listed 0x0203 fs = Some data -> (8 <= List.length data)%nat ->
  device_of x mem = Ok d ->
  forall V, l_drv x = Some V -> revert_tper (drive_env V (l_dh x) (l_calls x) clock go_pbkdf2 heap fuel) d pw isPsid isAdm [] = (t, r) ->
  let com := be16_at 4 data in
  let uid := if isPsid then uid_PSID else uid_SID in
  exists id, delivered (zeros 512) (an_in (K (firstn 1 opening))) id /\
  exists text serial, word_swapped (slice (2 * 10) 20 id) text /\ trimmed text serial /\
  let start := frame 0 0 com (start_payload uid_AdminSP (standard_credential serial isPsid pw) (uid8 uid)) in
  let after := sg_ioctls S at_ (with_calls x (driver_calls V (l_dh x) (l_calls x) t)) in
  exists calls, after = opening ++ calls
  /\ (sata_received calls = [start] \/ exists hsn tsn, sata_received calls = [start; frame hsn tsn com revert_payload]).
Proof.
  intros S h path h' x fd ans fs data mem d clock heap fuel pw isPsid isAdm t r HS Ew H Nn Hn at_ K opening HT HK Hh Wp Da L0 Lo Ll H8 Hd V HV HR com uid.
  destruct (C144_revert_opened_sata S h path h' x fd ans fs data mem d clock go_pbkdf2 heap fuel pw isPsid isAdm t r HS Ew H Nn Hn HT HK Hh go_pbkdf2_shape Wp Da L0 Lo Ll H8 Hd V HV HR)
    as (id & Did & text & serial & Sw & T & C). cbv zeta in C.
  assert (Ws : wf serial).
  { eapply wf_trimmed; [|exact T]. eapply wf_swapped; [|exact Sw]. apply wf_slice. eapply delivered_wf; [apply wf_zeros| |exact Did]. apply HK. }
  rewrite (credential_std serial isPsid pw Ws Wp) in C. destruct C as (calls & C1 & _ & C3 & _).
  exists id. split; [exact Did|]. exists text, serial. split; [exact Sw|]. split; [exact T|]. exists calls. split; [exact C1|exact C3].
Qed.
Print Assumptions C173_revert_of_opened_sata.
