(** C180 on a concrete Linux machine with an NVMe drive that has a PSID and an MSID. *)
From Verif Require Import Base M_Buffer M_Struc M_Ata M_TcgToken M_TcgCommand M_TcgDevice M_TcgSession M_DriveHandle M_Cdb M_SgDriver M_SgHandle M_NvmeLinux M_Strings M_LinuxInfo M_LinuxFactory
  M_LinuxSystem M_TcgOnDrive Spec_Drive Prop_Drive Spec_LinuxFactory P_LinuxFactory Prop_LinuxFactory Spec_NvmeLinux Spec_Sg P_Sg Prop_Sg
  Prop_NvmeLinux Prop_SgHandle Spec_Tcg Spec_TcgCommand Spec_TcgClient Spec_TcgSession Spec_TcgOnDrive P_TcgDevice P_TcgSession P_TcgOnDrive Spec_LinuxSystem P_LinuxSystem Prop_LinuxSystem Prop_LinuxTcg
  Prop_TcgOnDrive Ex_TcgSession Ex_TcgOnDrive Ex_LinuxSystem Inst_Tcg Inst_Linux
  Spec_Challenge P_Challenge Prop_Challenge Spec_Conform Prop_Conform Ex_Conform Spec_NvmeConform P_NvmeConform Prop_NvmeConform.

(** IDENTIFY, Level 0 discovery, then the answer of Ex_Conform's drive to the last packet sent *)
Definition excn_nvme (h : nv_hist) : nv_ans :=
  {| na_errno := 0; na_ret := 0; na_result := 0;
     na_in := if (List.length h =? 1)%nat then exy_identify else if (List.length h =? 2)%nat then exy_level0 else excf_answer (last (nvme_received h) []) |}.
Definition excn_sys : system := exy_sys excn_nvme exy_refuse_sg.
Lemma excn_bytes : forall k, wf (na_in (excn_nvme k)).
Proof.
  intros k. cbn [excn_nvme na_in]. destruct (_ =? 1)%nat; [unfold exy_identify; rewrite !wf_app; repeat split; auto using wf_zeros; wf_lit|].
  destruct (_ =? 2)%nat; [apply exy_level0_wf|]. apply excf_answer_wf.
Qed.
Lemma excn_received k c rs packet : if_send 7 0x1004 packet c -> Forall (if_recv 7 0x1004) rs -> last (nvme_received (k ++ c :: rs)) [] = packet.
Proof.
  intros (_ & _ & <- & a & E) F. unfold nvme_received. rewrite filter_app. cbn [filter]. rewrite E. cbn [plain_view up_opcode]. change (0x81 =? 0x81) with true. cbv iota.
  assert (Q : filter (fun c => up_opcode (read_passthru (nc_arg c)) =? 0x81) rs = []).
  { clear E. induction F as [|r rs (_ & _ & _ & b & E) _ IH]; [reflexivity|]. cbn [filter]. rewrite E. cbn [plain_view up_opcode]. exact IH. }
  rewrite Q, map_app. apply last_last.
Qed.
Lemma excn_skip (m n : nat) : skipn m (repeat 0 n) = repeat 0 (n - m).
Proof. revert n. induction m as [|m IH]; intros [|n]; cbn [skipn repeat Nat.sub]; auto. Qed.
Lemma excn_replies k packet p atoms : (2 <= List.length k)%nat -> excf_answer packet = ex_packet p -> wf p -> p = stream atoms -> (List.length p <= 100)%nat ->
  be32_at off_sub_len (firstn 56 (ex_packet p)) = blen p -> be32_at off_outstanding (received (ex_packet p)) = 0 -> has_payload (received (ex_packet p)) ->
  Forall atom_ok atoms -> visible atoms = atoms -> nvme_replies excn_nvme 7 0x1004 packet k 0 atoms.
Proof.
  intros Lk Ea W Es L B O Pay Ok_ V c rs Sc Rr Lr.
  assert (X : excn_nvme (k ++ c :: rs) = {| na_errno := 0; na_ret := 0; na_result := 0; na_in := ex_packet p |}).
  { unfold excn_nvme. rewrite (excn_received k c rs packet Sc Rr), Ea, app_length. cbn [List.length].
    replace ((List.length k + S (List.length rs) =? 1)%nat) with false by (symmetry; apply Nat.eqb_neq; lia).
    replace ((List.length k + S (List.length rs) =? 2)%nat) with false by (symmetry; apply Nat.eqb_neq; lia). reflexivity. }
  rewrite X. cbn [na_in]. split; [split; reflexivity|]. intros buf D. split; [lia|]. intros _.
  assert (Eb : buf = received (ex_packet p)).
  { apply (delivered_unique _ _ _ _ D). assert (Lz : List.length (zeros 2048) = 2048%nat) by apply repeat_length.
    replace (received (ex_packet p)) with (fill (zeros 2048) (ex_packet p)); [apply fill_delivered|].
    unfold fill, received. rewrite Lz. f_equal. unfold zeros. apply excn_skip. }
  subst buf. split; [intros [Hw _]; exact (Hw O)|]. split; [exact Pay|]. exists atoms. split; [now apply excf_carries|]. auto.
Qed.
Ltac excn_atoms := cbn [app]; repeat (apply Forall_cons; [cbn; first [split; [wf_now|reflexivity]|split; discriminate|reflexivity]|]); apply Forall_nil.
Lemma excn_sync k packet : (2 <= List.length k)%nat -> excf_answer packet = ex_packet ex_sync -> nvme_replies excn_nvme 7 0x1004 packet k 0 excf_sync.
Proof.
  intros Lk Ea. apply (excn_replies k packet ex_sync); [exact Lk|exact Ea|wf_now|reflexivity|apply Nat.leb_le; reflexivity|vm_compute; reflexivity|vm_compute; reflexivity|
    vm_compute; repeat split; discriminate| |reflexivity]. unfold excf_sync, sync_session, status_list. excn_atoms.
Qed.
Lemma excn_ok k packet : (2 <= List.length k)%nat -> excf_answer packet = ex_packet (ex_plain 0) -> nvme_replies excn_nvme 7 0x1004 packet k 0 (no_result 0).
Proof.
  intros Lk Ea. apply (excn_replies k packet (ex_plain 0)); [exact Lk|exact Ea|wf_now|reflexivity|apply Nat.leb_le; reflexivity|vm_compute; reflexivity|vm_compute; reflexivity|
    vm_compute; repeat split; discriminate| |reflexivity]. unfold no_result, status_list. excn_atoms.
Qed.
Lemma excn_no k packet : (2 <= List.length k)%nat -> excf_answer packet = ex_packet (ex_plain 1) -> nvme_replies excn_nvme 7 0x1004 packet k 0 (no_result 1).
Proof.
  intros Lk Ea. apply (excn_replies k packet (ex_plain 1)); [exact Lk|exact Ea|wf_now|reflexivity|apply Nat.leb_le; reflexivity|vm_compute; reflexivity|vm_compute; reflexivity|
    vm_compute; repeat split; discriminate| |reflexivity]. unfold no_result, status_list. excn_atoms.
Qed.
Lemma excn_pin k packet : (2 <= List.length k)%nat -> excf_answer packet = ex_packet ex_pin -> nvme_replies excn_nvme 7 0x1004 packet k 0 (one_cell 3 (Short true false [77; 83; 73; 68])).
Proof.
  intros Lk Ea. apply (excn_replies k packet ex_pin); [exact Lk|exact Ea|wf_now|reflexivity|apply Nat.leb_le; reflexivity|vm_compute; reflexivity|vm_compute; reflexivity|
    vm_compute; repeat split; discriminate| |reflexivity]. unfold one_cell, status_list. excn_atoms.
Qed.
Lemma excn_refuses challenge : wf challenge -> 1 <= blen challenge <= 400 -> challenge <> excf_psid -> excf_answer (psid_start 0x1004 challenge) = ex_packet (ex_plain 1).
Proof.
  intros W L Ne. pose proof (start_presents 0 0 0x1004 uid_AdminSP challenge uid_PSID eq_refl eq_refl W L) as P. fold (psid_start 0x1004 challenge) in P.
  assert (N73 : nth 73 (psid_start 0x1004 challenge) 0 = 0xFF /\ nth 88 (psid_start 0x1004 challenge) 0 = 0xF2).
  { pose proof P as (hd & a & rest & Lh & _ & _ & _ & ->). unfold uid_AdminSP.
    split; (rewrite app_nth2 by (rewrite Lh; apply Nat.leb_le; reflexivity)); rewrite Lh; reflexivity. }
  destruct N73 as [N73 N88]. unfold excf_answer. rewrite N73, N.eqb_refl.
  destruct (list_eq_dec N.eq_dec (psid_start 0x1004 challenge) excf_right) as [X|_]; [|destruct (list_eq_dec N.eq_dec (psid_start 0x1004 challenge) excf_open) as [X|_]; [|reflexivity]].
  - exfalso. rewrite X in P. destruct (C177_one_reading _ _ _ _ _ _ _ excf_right_presents P) as (_ & E & _). exact (Ne (eq_sym E)).
  - exfalso. rewrite X in N88. vm_compute in N88. discriminate N88.
Qed.
Theorem excn_checks k : (2 <= List.length k)%nat -> checks_psid excn_nvme 7 0x1004 k 0 excf_psid 105 0x12345678 1.
Proof.
  intros Lk. split; [|split].
  - exists (Short false false [105]), (Short false false [0x12; 0x34; 0x56; 0x78]), [].
    split; [split; [split; [wf_now|reflexivity]|right; exists [105]; auto]|]. split; [split; [split; [wf_now|reflexivity]|right; exists [0x12; 0x34; 0x56; 0x78]; auto]|].
    apply excn_sync; [exact Lk|]. vm_compute. reflexivity.
  - intros ch W L Ne. apply excn_no; [exact Lk|]. now apply excn_refuses.
  - intros c rs _ _. apply excn_ok; [rewrite app_length; lia|]. vm_compute. reflexivity.
Qed.
Theorem excn_shows k : (2 <= List.length k)%nat -> shows_msid excn_nvme 7 0x1004 k 0 [77; 83; 73; 68].
Proof.
  intros Lk. exists (Short false false [105]), 105, (Short false false [0x12; 0x34; 0x56; 0x78]), 0x12345678, [], (Short true false [77; 83; 73; 68]).
  split; [split; [split; [wf_now|reflexivity]|right; exists [105]; auto]|]. split; [split; [split; [wf_now|reflexivity]|right; exists [0x12; 0x34; 0x56; 0x78]; auto]|].
  split; [split; [split; [wf_now|reflexivity]|auto]|]. split; [apply excn_sync; [exact Lk|vm_compute; reflexivity]|].
  intros c rs _ _. apply excn_pin; [rewrite app_length; lia|vm_compute; reflexivity].
Qed.
Lemma excn_fast n : (n <= 400)%nat -> fast_enough slept 0x1004 n.
Proof.
  intros Hn h packet i Hi. rewrite !slept_app. unfold exchange. rewrite slept_app. cbn [slept]. rewrite slept_rounds. lia.
Qed.
Lemma excn_check : nvme_check excn_sys = true.
Proof. vm_compute. reflexivity. Qed.

(** Every password: the PSID reverts the drive, any other is refused with status 1 (NOT_AUTHORIZED). *)
Theorem ex_C180 pw : wf pw -> 1 <= blen pw <= 400 -> exists x V d, l_drv x = Some V /\ device_of x (fun _ _ => 0) = Ok d /\
  let outcome := snd (revert_tper (drive_env V (l_dh x) (l_calls x) slept exo_kdf (fun _ => 0) 500) d pw true false []) in
  (pw = excf_psid -> outcome = Ok tt) /\ (pw <> excf_psid -> outcome = Err (ETcg 1))
  /\ snd (get_default_password (drive_env V (l_dh x) (l_calls x) slept exo_kdf (fun _ => 0) 500) d []) = Ok [77; 83; 73; 68].
Proof.
  intros W L. destruct (nvme_checked _ excn_check) as (x & V & d & Ho & Hn & HV & Hd & Hs & Da). destruct inst_listed as (L1 & L2 & L3).
  exists x, V, d. split; [exact HV|]. split; [exact Hd|].
  assert (Lk : (2 <= List.length (nvme_ioctls excn_sys (at_nvme [] exy_path 7) x))%nat).
  { destruct (nvme_opened excn_sys [] exy_path _ x 7 (exy_addresses _ _) eq_refl Ho Hn) as (c1 & c2 & id & ans' & E & _). rewrite E. apply le_n. }
  assert (C16 : be16_at 4 inst_opal2 = 0x1004) by (vm_compute; reflexivity).
  pose proof (C180_psid_from_path excn_sys [] exy_path _ x 7 inst_level0 exy_features inst_opal2 (fun _ _ => 0) d slept exo_kdf (fun _ => 0) 500%nat excf_psid pw false 0%nat 105 0x12345678 1 V
    (exy_addresses _ _) eq_refl Ho Hn excn_bytes (fun _ => eq_refl) exo_kdf_ok Hs Da exy_conforming L1 L2 L3 Hd HV) as P. rewrite C16 in P.
  specialize (P ltac:(lia) (excn_fast 0 ltac:(lia)) W L (excn_checks _ Lk) ltac:(lia)). cbv zeta in P |- *. destruct P as [P1 P2]. split; [exact P1|]. split; [exact P2|].
  pose proof (C180_password_from_path excn_sys [] exy_path _ x 7 inst_level0 exy_features inst_opal2 (fun _ _ => 0) d slept exo_kdf (fun _ => 0) 500%nat 0%nat [77; 83; 73; 68] V
    (exy_addresses _ _) eq_refl Ho Hn excn_bytes (fun _ => eq_refl) exo_kdf_ok Hs Da exy_conforming L1 L2 L3 Hd HV) as Q. rewrite C16 in Q.
  exact (Q ltac:(lia) (excn_fast 0 ltac:(lia)) (excn_shows _ Lk)).
Qed.
Print Assumptions ex_C180.
