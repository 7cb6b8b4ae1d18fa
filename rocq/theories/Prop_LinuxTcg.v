(** Property theorem C125: from a device path to a reverted drive, on a complete Linux system. *)
From Verif Require Import Base M_Buffer M_Struc M_Ata M_TcgToken M_TcgCommand M_TcgDevice M_TcgSession M_DriveHandle M_Cdb M_SgDriver M_SgHandle M_NvmeLinux M_Strings M_LinuxInfo M_LinuxFactory
  M_LinuxSystem M_TcgOnDrive Spec_Drive P_DriveHandle P_Identity Prop_Drive Spec_LinuxFactory P_LinuxFactory Prop_LinuxFactory Spec_NvmeLinux Spec_Sg P_Sg Prop_Sg
  Prop_NvmeLinux Prop_SgHandle Spec_Tcg Spec_TcgCommand Spec_TcgClient Spec_TcgSession P_TcgSession Spec_TcgOnDrive Prop_TcgDevice P_TcgOnDrive Prop_TcgOnDrive Spec_LinuxSystem P_LinuxSystem Prop_LinuxSystem.

(** The TCG device made from an opened drive (tcg/device.go:54-76 over common/drive_handle.go:242-244). *)
Definition device_of (x : handle) (mem : N -> N -> N) : res device :=
  new_tcg_device (fst (get_tcg_level0_info_and_serial (l_dh x))) (snd (get_tcg_level0_info_and_serial (l_dh x))) mem.

Lemma descriptors_wf ans fs : wf ans -> level0_answer ans fs -> wf (descriptors fs).
Proof. intros W (header & rest & -> & _). rewrite !wf_app in W. tauto. Qed.
Lemma delivered_unique old new a b : delivered old new a -> delivered old new b -> a = b.
Proof.
  intros (L & A & B) (L' & A' & B'). apply list_eq_nth_error. intros i.
  destruct (Nat.lt_ge_cases i (List.length old)) as [Hi|Hi].
  - destruct (Nat.lt_ge_cases i (List.length new)) as [Hn|Hn]; [now rewrite A, A' by lia|now rewrite B, B' by lia].
  - transitivity (@None N); [|symmetry]; apply nth_error_None; lia.
Qed.
Lemma delivered_wf old new got : wf old -> wf new -> delivered old new got -> wf got.
Proof.
  intros Wo Wn (L & A & B). apply Forall_forall. intros b Hb. apply In_nth_error in Hb as (i & Hi).
  assert (Hl : (i < List.length got)%nat) by (apply nth_error_Some; congruence).
  destruct (Nat.lt_ge_cases i (List.length new)) as [Hn|Hn].
  - rewrite A in Hi by lia. apply nth_error_In in Hi. exact (proj1 (Forall_forall _ _) Wn _ Hi).
  - rewrite B in Hi by lia. apply nth_error_In in Hi. exact (proj1 (Forall_forall _ _) Wo _ Hi).
Qed.
Lemma be16_small data : wf data -> be16_at 4 data < 2 ^ 16.
Proof.
  intros W. unfold be16_at. pose proof (be_val_lt (slice 4 2 data) (wf_slice _ _ _ W)) as B.
  assert (Hl : (List.length (slice 4 2 data) <= 2)%nat) by (unfold slice; rewrite firstn_length; lia).
  eapply N.lt_le_trans; [exact B|]. change (2 ^ 16) with (256 ^ 2). apply N.pow_le_mono_r; [discriminate|]. unfold blen. lia.
Qed.

(** C125.  A drive opened by path, whose Level 0 answer lists Opal v2 (and not Opal v1) with some ComID, is sent by RevertTPer exactly the
    StartSession and Revert frames of that ComID and nothing else, whatever it answers; the credential is derived from the password and the
    serial number of its IDENTIFY data; success means that it accepted the Revert. *)
Theorem C125_revert_opened_drive : forall S h path h' x fd ans fs data mem d clock kdf heap fuel pw (isPsid isAdm : bool) t r,
  addresses_ok S -> w_open (sy_world S) (h ++ [LOpen path]) = inr fd -> open_by_path (linux S) h path = (h', Ok x) ->
  l_driver_name x = str "LinuxNvmeDriver" ->
  let at_ := at_nvme h path fd in
  let K := sy_nvme S at_ in
  let opening := nvme_ioctls S at_ x in
  (forall k, wf (na_in (K k))) -> (forall j, heap j < 256) -> (forall y s, List.length (kdf y s) = 32%nat /\ wf (kdf y s)) -> wf pw ->
  nv_succeeded (K opening) -> delivered (zeros 2048) (na_in (K opening)) ans -> level0_answer ans fs ->
  listed 0x0200 fs = false -> last_listed 0x0203 fs = Some data -> (8 <= List.length data)%nat ->
  device_of x mem = Ok d ->
  forall V, l_drv x = Some V -> revert_tper (drive_env V (l_dh x) (l_calls x) clock kdf heap fuel) d pw isPsid isAdm [] = (t, r) ->
  let com := be16_at 4 data in
  let uid := if isPsid then uid_PSID else uid_SID in
  exists id, delivered (zeros 4096) (firstn 4096 (na_in (K (firstn 1 opening)))) id /\
  exists serial, trimmed (slice 4 20 id) serial /\
  let start := frame 0 0 com (start_payload uid_AdminSP (credential_of kdf serial isPsid pw) (uid8 uid)) in
  let after := nvme_ioctls S at_ (with_calls x (driver_calls V (l_dh x) (l_calls x) t)) in
  exists calls, after = opening ++ calls /\ Forall (fun c => nc_fd c = fd /\ protocol1 com c) calls
  /\ (nvme_received calls = [start] \/ exists hsn tsn, nvme_received calls = [start; frame hsn tsn com revert_payload])
  /\ (r = Ok tt -> exists hsn tsn resp, nvme_received calls = [start; frame hsn tsn com revert_payload]
        /\ nv_succeeded (K after) /\ delivered (zeros 2048) (na_in (K after)) (r_buf resp) /\ accepted resp).
Proof.
  intros S h path h' x fd ans fs data mem d clock kdf heap fuel pw isPsid isAdm t r HS Ew H Hn at_ K opening HK Hh Hkdf Wp Hs Da L0 Lo Ll H8 Hd V HV HR com uid.
  destruct (nvme_opened S h path h' x fd HS Ew H Hn) as (c1 & c2 & id & ans' & E & _ & _ & _ & Did & T & _ & _ & Da' & G & _ & E1 & Ef & Ho & Ed).
  fold at_ in E, Did, Da', G, E1, Ed. fold K in Did, Da', G, E1, Ed. fold opening in E.
  rewrite E in Hs, Da.
  assert (ans' = ans) by (eapply delivered_unique; eassumption). subst ans'.
  destruct (G Hs) as (_ & _ & R). specialize (R fs L0). destruct R as (_ & _ & _ & _ & R5 & _ & _ & R8 & RR).
  rewrite Ed in HV. injection HV as <-.
  exists id. rewrite E. split; [exact Did|]. destruct T as (_ & T2 & _). exists (i_serial (p_info (l_dh x))). split; [exact T2|]. cbv zeta.
  assert (Wans : wf ans) by (eapply delivered_wf; [apply wf_zeros| |exact Da]; apply HK).
  assert (Wd : wf data) by (eapply wf_last_listed; [eapply descriptors_wf; eassumption|exact Ll]).
  unfold device_of in Hd. cbn [get_tcg_level0_info_and_serial fst snd] in Hd.
  rewrite Lo in R5. rewrite (last_listed_listed _ _ _ Ll) in R8.
  pose proof (C18_com_ids _ _ _ _ Hd) as (_ & GC).
  unfold new_tcg_device in Hd. rewrite R5, R8 in Hd. cbv iota in Hd.
  assert (Hd' := Hd). injection Hd' as Hd'.
  destruct (GC 3 0x0203 ltac:(cbn; tauto) ltac:(rewrite <- Hd'; reflexivity)) as (_ & GB & _).
  destruct (GB data ltac:(rewrite (RR 0x0203 ltac:(discriminate)); exact Ll) Wd H8) as (GB' & _).
  pose proof (C117_revert_over_nvme K fd (sy_nvme_addr S at_) [c1] id (l_dh x) (l_calls x) clock kdf heap fuel d com pw isPsid isAdm t r
    Ho (proj1 HS _) HK Hh Hkdf ltac:(rewrite <- Hd'; reflexivity) GB' (be16_small data Wd) Wp HR) as C. cbv zeta in C.
  assert (Es : get_serial d = i_serial (p_info (l_dh x))) by (rewrite <- Hd'; reflexivity). rewrite Es in C. clear Es.
  unfold nvme_ioctls. cbv zeta. cbn [with_calls l_fd l_calls]. fold at_ K. rewrite Ef, E1.
  assert (Eo : nv_replay K fd (sy_nvme_addr S at_) [c1] (l_calls x) = [c1; c2]).
  { rewrite <- E. unfold opening, nvme_ioctls. cbv zeta. fold at_ K. rewrite Ef, E1. reflexivity. }
  rewrite Eo in C. exact C.
Qed.
Print Assumptions C125_revert_opened_drive.
