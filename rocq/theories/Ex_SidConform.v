(** C184 on a concrete Linux machine whose NVMe drive has an owner password. *)
From Verif Require Import Base M_Buffer M_Struc M_Ata M_TcgToken M_TcgCommand M_TcgDevice M_TcgSession M_DriveHandle M_Cdb M_SgDriver M_SgHandle M_NvmeLinux M_Strings M_LinuxInfo M_LinuxFactory
  M_LinuxSystem M_TcgOnDrive Spec_Drive Prop_Drive Spec_LinuxFactory P_LinuxFactory Prop_LinuxFactory Spec_NvmeLinux Spec_Sg P_Sg Prop_Sg
  Prop_NvmeLinux Prop_SgHandle Spec_Tcg Spec_TcgCommand Spec_TcgClient Spec_TcgSession Spec_TcgOnDrive P_TcgDevice P_TcgSession P_TcgOnDrive Spec_LinuxSystem P_LinuxSystem Prop_LinuxSystem Prop_LinuxTcg
  Prop_TcgOnDrive Ex_TcgSession Ex_TcgOnDrive Ex_LinuxSystem Inst_Tcg Inst_Linux
  Spec_Challenge P_Challenge Prop_Challenge Spec_Conform Prop_Conform Ex_Conform Spec_NvmeConform P_NvmeConform Prop_NvmeConform Ex_NvmeConform Ex_Verdict M_WinPass Spec_WinPass Prop_WinPass Spec_SidConform Prop_SidConform.

(** a StartSession for SID is granted if it presents [pin], any other packet with a StartSession in it is refused; other methods succeed *)
Definition exsi_answer (pin cmd : bytes) : bytes :=
  if nth 73 cmd 0 =? 0xFF then if list_eq_dec N.eq_dec cmd (sid_start 0x1004 pin) then ex_packet ex_sync else ex_packet (ex_plain 1) else ex_packet (ex_plain 0).
Definition exsi_nvme (pin : bytes) (h : nv_hist) : nv_ans :=
  {| na_errno := 0; na_ret := 0; na_result := 0;
     na_in := if (List.length h =? 1)%nat then exy_identify else if (List.length h =? 2)%nat then exy_level0 else exsi_answer pin (last (nvme_received h) []) |}.
Definition exsi_sys (pin : bytes) : system := exy_sys (exsi_nvme pin) exy_refuse_sg.
(** a key derivation that depends on the password *)
Definition exsi_kdf (y s : bytes) : bytes := firstn 32 (map (fun b => b mod 256) y ++ zeros 32).
Lemma exsi_kdf_ok y s : List.length (exsi_kdf y s) = 32%nat /\ wf (exsi_kdf y s).
Proof.
  unfold exsi_kdf. split; [rewrite firstn_length_le; [reflexivity|]; rewrite app_length; unfold zeros; rewrite repeat_length; lia|].
  apply wf_firstn. rewrite wf_app. split; [|apply wf_zeros]. apply Forall_forall. intros b Hb. apply in_map_iff in Hb as (z & <- & _). unfold is_byte. apply N.mod_lt. discriminate.
Qed.
Lemma exsi_bytes pin : forall k, wf (na_in (exsi_nvme pin k)).
Proof.
  intros k. cbn [exsi_nvme na_in]. destruct (_ =? 1)%nat; [unfold exy_identify; rewrite !wf_app; repeat split; auto using wf_zeros; wf_lit|].
  destruct (_ =? 2)%nat; [apply exy_level0_wf|]. unfold exsi_answer. destruct (_ =? _); [destruct (list_eq_dec _ _ _)|]; apply excf_packet_wf; wf_now.
Qed.
Lemma exsi_replies pin k packet p atoms : (2 <= List.length k)%nat -> exsi_answer pin packet = ex_packet p -> wf p -> p = stream atoms -> (List.length p <= 100)%nat ->
  be32_at off_sub_len (firstn 56 (ex_packet p)) = blen p -> be32_at off_outstanding (received (ex_packet p)) = 0 -> has_payload (received (ex_packet p)) ->
  Forall atom_ok atoms -> visible atoms = atoms -> nvme_replies (exsi_nvme pin) 7 0x1004 packet k 0 atoms.
Proof.
  intros Lk Ea W Es L B O Pay Ok_ V c rs Sc Rr Lr.
  assert (X : exsi_nvme pin (k ++ c :: rs) = {| na_errno := 0; na_ret := 0; na_result := 0; na_in := ex_packet p |}).
  { unfold exsi_nvme. rewrite (excn_received k c rs packet Sc Rr), Ea, app_length. cbn [List.length].
    replace ((List.length k + S (List.length rs) =? 1)%nat) with false by (symmetry; apply Nat.eqb_neq; lia).
    replace ((List.length k + S (List.length rs) =? 2)%nat) with false by (symmetry; apply Nat.eqb_neq; lia). reflexivity. }
  rewrite X. cbn [na_in]. split; [split; reflexivity|]. intros buf D. split; [lia|]. intros _.
  assert (Eb : buf = received (ex_packet p)).
  { apply (delivered_unique _ _ _ _ D). assert (Lz : List.length (zeros 2048) = 2048%nat) by apply repeat_length.
    replace (received (ex_packet p)) with (fill (zeros 2048) (ex_packet p)); [apply fill_delivered|].
    unfold fill, received. rewrite Lz. f_equal. unfold zeros. apply excn_skip. }
  subst buf. split; [intros [Hw _]; exact (Hw O)|]. split; [exact Pay|]. exists atoms. split; [now apply excf_carries|]. auto.
Qed.
Lemma exsi_sync pin k packet : (2 <= List.length k)%nat -> exsi_answer pin packet = ex_packet ex_sync -> nvme_replies (exsi_nvme pin) 7 0x1004 packet k 0 excf_sync.
Proof.
  intros Lk Ea. apply (exsi_replies pin k packet ex_sync); [exact Lk|exact Ea|wf_now|reflexivity|apply Nat.leb_le; reflexivity|vm_compute; reflexivity|vm_compute; reflexivity|
    vm_compute; repeat split; discriminate| |reflexivity]. unfold excf_sync, sync_session, status_list. excn_atoms.
Qed.
Lemma exsi_ok pin k packet : (2 <= List.length k)%nat -> exsi_answer pin packet = ex_packet (ex_plain 0) -> nvme_replies (exsi_nvme pin) 7 0x1004 packet k 0 (no_result 0).
Proof.
  intros Lk Ea. apply (exsi_replies pin k packet (ex_plain 0)); [exact Lk|exact Ea|wf_now|reflexivity|apply Nat.leb_le; reflexivity|vm_compute; reflexivity|vm_compute; reflexivity|
    vm_compute; repeat split; discriminate| |reflexivity]. unfold no_result, status_list. excn_atoms.
Qed.
Lemma exsi_no pin k packet : (2 <= List.length k)%nat -> exsi_answer pin packet = ex_packet (ex_plain 1) -> nvme_replies (exsi_nvme pin) 7 0x1004 packet k 0 (no_result 1).
Proof.
  intros Lk Ea. apply (exsi_replies pin k packet (ex_plain 1)); [exact Lk|exact Ea|wf_now|reflexivity|apply Nat.leb_le; reflexivity|vm_compute; reflexivity|vm_compute; reflexivity|
    vm_compute; repeat split; discriminate| |reflexivity]. unfold no_result, status_list. excn_atoms.
Qed.
Lemma exsi_started ch : wf ch -> 1 <= blen ch <= 400 -> nth 73 (sid_start 0x1004 ch) 0 = 0xFF.
Proof.
  intros W L. pose proof (start_presents 0 0 0x1004 uid_AdminSP ch uid_SID eq_refl eq_refl W L) as P. fold (sid_start 0x1004 ch) in P.
  destruct P as (hd & a & rest & Lh & _ & _ & _ & ->). unfold uid_AdminSP. rewrite app_nth2 by (rewrite Lh; apply Nat.leb_le; reflexivity). rewrite Lh. reflexivity.
Qed.
Lemma exsi_differ a b : wf a -> 1 <= blen a <= 400 -> wf b -> 1 <= blen b <= 400 -> sid_start 0x1004 a = sid_start 0x1004 b -> a = b.
Proof.
  intros Wa La Wb Lb E. pose proof (start_presents 0 0 0x1004 uid_AdminSP a uid_SID eq_refl eq_refl Wa La) as P. pose proof (start_presents 0 0 0x1004 uid_AdminSP b uid_SID eq_refl eq_refl Wb Lb) as Q.
  fold (sid_start 0x1004 a) in P. fold (sid_start 0x1004 b) in Q. rewrite E in P. exact (proj1 (proj2 (C177_one_reading _ _ _ _ _ _ _ P Q))).
Qed.
Theorem exsi_checks pin k : wf pin -> 1 <= blen pin <= 400 -> (2 <= List.length k)%nat -> nvme_checks_sid (exsi_nvme pin) 7 0x1004 k 0 pin 105 0x12345678 1.
Proof.
  intros Wp Lp Lk. split; [|split].
  - exists (Short false false [105]), (Short false false [0x12; 0x34; 0x56; 0x78]), [].
    split; [split; [split; [wf_now|reflexivity]|right; exists [105]; auto]|]. split; [split; [split; [wf_now|reflexivity]|right; exists [0x12; 0x34; 0x56; 0x78]; auto]|].
    apply exsi_sync; [exact Lk|]. unfold exsi_answer. rewrite (exsi_started pin Wp Lp), N.eqb_refl. destruct (list_eq_dec _ _ _) as [_|X]; [reflexivity|now elim X].
  - intros ch W L Ne. apply exsi_no; [exact Lk|]. unfold exsi_answer. rewrite (exsi_started ch W L), N.eqb_refl. destruct (list_eq_dec _ _ _) as [X|_]; [|reflexivity].
    elim Ne. now apply exsi_differ.
  - intros c rs _ _. apply exsi_ok; [rewrite app_length; lia|]. unfold exsi_answer. replace (nth 73 _ 0 =? 0xFF) with false by (vm_compute; reflexivity). reflexivity.
Qed.
Definition exsi_short : bytes := [49; 50; 51; 52].
Definition exsi_long : bytes := [0xD0; 32; 49; 50; 51; 52] ++ zeros 28.
Lemma exsi_check : nvme_check (exsi_sys exsi_short) = true /\ nvme_check (exsi_sys exsi_long) = true.
Proof. vm_compute. split; reflexivity. Qed.
Lemma exsi_run pin pw : nvme_check (exsi_sys pin) = true -> wf pin -> 1 <= blen pin <= 400 -> wf pw -> pw <> [] -> exists x V d, l_drv x = Some V /\ device_of x (fun _ _ => 0) = Ok d /\
  let outcome := snd (revert_tper (drive_env V (l_dh x) (l_calls x) slept exsi_kdf (fun _ => 0) 500) d pw false false []) in
  let presented := [0xD0; 32] ++ exsi_kdf (firstn 32 pw) [] in
  (presented = pin -> outcome = Ok tt) /\ (presented <> pin -> outcome = Err (ETcg 1)) /\ (blen pin <= 32 -> outcome = Err (ETcg 1)).
Proof.
  intros Ck Wn Ln W Np. destruct (nvme_checked _ Ck) as (x & V & d & Ho & Hn & HV & Hd & Hs & Da). destruct inst_listed as (L1 & L2 & L3).
  exists x, V, d. split; [exact HV|]. split; [exact Hd|].
  assert (Lk : (2 <= List.length (nvme_ioctls (exsi_sys pin) (at_nvme [] exy_path 7) x))%nat).
  { destruct (nvme_opened (exsi_sys pin) [] exy_path _ x 7 (exy_addresses _ _) eq_refl Ho Hn) as (c1 & c2 & id & ans' & E & _). rewrite E. apply le_n. }
  assert (C16 : be16_at 4 inst_opal2 = 0x1004) by (vm_compute; reflexivity).
  pose proof (C184_nvme_from_path (exsi_sys pin) [] exy_path _ x 7 inst_level0 exy_features inst_opal2 (fun _ _ => 0) d slept exsi_kdf (fun _ => 0) 500%nat pin pw false 0%nat 105 0x12345678 1 V
    (exy_addresses _ _) eq_refl Ho Hn (exsi_bytes pin) (fun _ => eq_refl) exsi_kdf_ok Hs Da exy_conforming L1 L2 L3 Hd HV) as P. rewrite C16 in P.
  exact (P ltac:(lia) (excn_fast 0 ltac:(lia)) W Np Wn (proj1 Ln) (exsi_checks pin _ Wn Ln Lk) ltac:(split; [discriminate|reflexivity])).
Qed.
(** The PIN "1234": refused with status 1 (NOT_AUTHORIZED) whatever the password, "1234" included; ... *)
Theorem ex_C184_short pw : wf pw -> pw <> [] -> exists x V d, l_drv x = Some V /\ device_of x (fun _ _ => 0) = Ok d /\
  snd (revert_tper (drive_env V (l_dh x) (l_calls x) slept exsi_kdf (fun _ => 0) 500) d pw false false []) = Err (ETcg 1).
Proof.
  intros W Np. destruct (exsi_run exsi_short pw (proj1 exsi_check) ltac:(wf_now) ltac:(vm_compute; split; discriminate) W Np) as (x & V & d & A & B & _ & _ & Q).
  exists x, V, d. split; [exact A|]. split; [exact B|]. apply Q. vm_compute. discriminate.
Qed.
(** ... the 34-byte PIN of the key of "1234": "1234" reverts the drive, "1235" is refused. *)
Theorem ex_C184_long : exists x V d, l_drv x = Some V /\ device_of x (fun _ _ => 0) = Ok d /\
  snd (revert_tper (drive_env V (l_dh x) (l_calls x) slept exsi_kdf (fun _ => 0) 500) d [49; 50; 51; 52] false false []) = Ok tt.
Proof.
  destruct (exsi_run exsi_long [49; 50; 51; 52] (proj2 exsi_check) ltac:(wf_now) ltac:(vm_compute; split; discriminate) ltac:(wf_now) ltac:(discriminate)) as (x & V & d & A & B & Q & _).
  exists x, V, d. split; [exact A|]. split; [exact B|]. apply Q. reflexivity.
Qed.
Theorem ex_C184_long_wrong : exists x V d, l_drv x = Some V /\ device_of x (fun _ _ => 0) = Ok d /\
  snd (revert_tper (drive_env V (l_dh x) (l_calls x) slept exsi_kdf (fun _ => 0) 500) d [49; 50; 51; 53] false false []) = Err (ETcg 1).
Proof.
  destruct (exsi_run exsi_long [49; 50; 51; 53] (proj2 exsi_check) ltac:(wf_now) ltac:(vm_compute; split; discriminate) ltac:(wf_now) ltac:(discriminate)) as (x & V & d & A & B & _ & Q & _).
  exists x, V, d. split; [exact A|]. split; [exact B|]. apply Q. discriminate.
Qed.
Print Assumptions ex_C184_long_wrong.
