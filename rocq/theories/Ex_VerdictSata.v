(** C183 on a concrete Linux machine whose SATA drive answers Authenticate by the book. *)
From Verif Require Import Base M_Buffer M_Struc M_Ata M_TcgToken M_TcgCommand M_TcgDevice M_TcgSession M_DriveHandle M_Cdb M_SgDriver M_SgHandle M_NvmeLinux M_Strings M_LinuxInfo M_LinuxFactory
  M_LinuxSystem M_TcgOnDrive Spec_Drive Prop_Drive Spec_LinuxFactory P_LinuxFactory Prop_LinuxFactory Spec_NvmeLinux Spec_Sg P_Sg Prop_Sg
  Prop_NvmeLinux Prop_SgHandle Spec_Tcg Spec_TcgCommand Spec_TcgClient Spec_TcgSession Spec_TcgOnDrive P_TcgDevice P_TcgSession P_TcgOnDrive Spec_LinuxSystem P_LinuxSystem Prop_LinuxSystem Prop_LinuxTcg
  Prop_TcgOnDrive Spec_LinuxSata Prop_LinuxSataTcg Ex_LinuxSata Ex_TcgSession Ex_TcgOnDrive Ex_LinuxSystem Inst_Tcg Inst_Linux
  Spec_Challenge P_Challenge Prop_Challenge Spec_Conform Prop_Conform Ex_Conform Spec_NvmeConform P_NvmeConform Prop_NvmeConform Ex_NvmeConform Spec_SataConform P_SataConform Prop_SataConform
  Ex_SataConform Spec_Verdict Prop_Verdict Ex_Verdict Spec_VerdictSata Prop_VerdictSata.

Definition exvs_sata (h : sg_hist) : sg_ans :=
  {| an_errno := 0; an_ret := 0; an_sense := []; an_status := Some 0;
     an_in := if (List.length h =? 1)%nat then exy_ata_identify else if (List.length h =? 2)%nat then exy_level0 else exvd_answer (last (sata_received h) []) |}.
Definition exvs_sys : system := exy_sys exy_refuse_nvme exvs_sata.
Lemma exvs_takes : takes_security exvs_sata.
Proof. intros k c s _. repeat split; reflexivity. Qed.
Lemma exvs_bytes : forall k, wf (an_in (exvs_sata k)).
Proof.
  intros k. cbn [exvs_sata an_in]. destruct (_ =? 1)%nat; [wf_lit|]. destruct (_ =? 2)%nat; [apply exy_level0_wf|].
  unfold exvd_answer. destruct (_ =? _); [|destruct (list_eq_dec _ _ _)]; apply excf_packet_wf; wf_now.
Qed.
Lemma exvs_replies k packet p atoms : (2 <= List.length k)%nat -> exvd_answer packet = ex_packet p -> wf p -> p = stream atoms -> (List.length p <= 100)%nat ->
  be32_at off_sub_len (firstn 56 (ex_packet p)) = blen p -> be32_at off_outstanding (received (ex_packet p)) = 0 -> has_payload (received (ex_packet p)) ->
  Forall atom_ok atoms -> visible atoms = atoms -> sata_replies exvs_sata 0x1004 packet k 0 atoms.
Proof.
  intros Lk Ea W Es L B O Pay Ok_ V c rs Sc Rr Lr buf D.
  assert (X : an_in (exvs_sata (k ++ c :: rs)) = ex_packet p).
  { unfold exvs_sata. cbn [an_in]. rewrite (excs_received k c rs packet Sc Rr), Ea, app_length. cbn [List.length].
    replace ((List.length k + S (List.length rs) =? 1)%nat) with false by (symmetry; apply Nat.eqb_neq; lia).
    replace ((List.length k + S (List.length rs) =? 2)%nat) with false by (symmetry; apply Nat.eqb_neq; lia). reflexivity. }
  rewrite X in D. split; [lia|]. intros _.
  assert (Eb : buf = received (ex_packet p)).
  { apply (delivered_unique _ _ _ _ D). assert (Lz : List.length (zeros 2048) = 2048%nat) by apply repeat_length.
    replace (received (ex_packet p)) with (fill (zeros 2048) (ex_packet p)); [apply fill_delivered|].
    unfold fill, received. rewrite Lz. f_equal. unfold zeros. apply excn_skip. }
  subst buf. split; [intros [Hw _]; exact (Hw O)|]. split; [exact Pay|]. exists atoms. split; [now apply excf_carries|]. auto.
Qed.
Lemma exvs_sync k packet : (2 <= List.length k)%nat -> exvd_answer packet = ex_packet ex_sync -> sata_replies exvs_sata 0x1004 packet k 0 excf_sync.
Proof.
  intros Lk Ea. apply (exvs_replies k packet ex_sync); [exact Lk|exact Ea|wf_now|reflexivity|apply Nat.leb_le; reflexivity|vm_compute; reflexivity|vm_compute; reflexivity|
    vm_compute; repeat split; discriminate| |reflexivity]. unfold excf_sync, sync_session, status_list. excn_atoms.
Qed.
Lemma exvs_says (b : bool) k packet : (2 <= List.length k)%nat -> exvd_answer packet = ex_packet (if b then exvd_true else exvd_false) ->
  sata_replies exvs_sata 0x1004 packet k 0 (boolean_result b).
Proof.
  intros Lk Ea. apply (exvs_replies k packet (if b then exvd_true else exvd_false)); [exact Lk|exact Ea|destruct b; wf_now|destruct b; reflexivity|destruct b; apply Nat.leb_le; reflexivity|
    destruct b; vm_compute; reflexivity|destruct b; vm_compute; reflexivity|destruct b; vm_compute; repeat split; discriminate| |destruct b; reflexivity].
  unfold boolean_result, status_list. destruct b; excn_atoms.
Qed.
Theorem exvs_judges k : (2 <= List.length k)%nat -> sata_judges exvs_sata 0x1004 k 0 uid_AdminSP uid_SID exvd_pin 105 0x12345678.
Proof.
  intros Lk. split.
  - exists (Short false false [105]), (Short false false [0x12; 0x34; 0x56; 0x78]), [].
    split; [split; [split; [wf_now|reflexivity]|right; exists [105]; auto]|]. split; [split; [split; [wf_now|reflexivity]|right; exists [0x12; 0x34; 0x56; 0x78]; auto]|].
    apply exvs_sync; [exact Lk|]. vm_compute. reflexivity.
  - intros c rs ch _ _ W L. apply exvs_says; [rewrite app_length; lia|]. now apply exvd_judge_answer.
Qed.
Lemma exvs_check : sata_check exvs_sys = true.
Proof. vm_compute. reflexivity. Qed.

(** The PIN fails, every other password "succeeds"; with hashing every password "succeeds". *)
Theorem ex_C183_sata pw : wf pw -> 1 <= blen pw <= 400 -> exists x V d, l_drv x = Some V /\ device_of x (fun _ _ => 0) = Ok d /\
  let outcome plain := open_and_authenticate (drive_env V (l_dh x) (l_calls x) slept exo_kdf (fun _ => 0) 500) d plain uid_AdminSP uid_SID pw [] in
  (pw = exvd_pin -> outcome true = Some (Err (EFmt "authentication failed: %d" 1))) /\ (pw <> exvd_pin -> outcome true = Some (Ok tt)) /\ outcome false = Some (Ok tt).
Proof.
  intros W L. destruct (sata_checked _ exvs_check) as (x & V & d & Ho & Hn & HV & Hd & Da). destruct inst_listed as (L1 & L2 & L3).
  exists x, V, d. split; [exact HV|]. split; [exact Hd|].
  assert (Lk : (2 <= List.length (sg_ioctls exvs_sys (at_sg [] exy_path 7) x))%nat).
  { destruct (sg_opened exvs_sys [] exy_path _ x 7 (exy_addresses _ _) eq_refl Ho (ext_no_nvme (at_nvme [] exy_path 7)) Hn) as (s1 & srest & c1 & rest & id & E & _). rewrite E. cbn [app List.length]. rewrite app_length. cbn [List.length]. lia. }
  assert (C16 : be16_at 4 inst_opal2 = 0x1004) by (vm_compute; reflexivity).
  pose proof (C183_sata_from_path exvs_sys [] exy_path _ x 7 inst_level0 exy_features inst_opal2 (fun _ _ => 0) d slept exo_kdf (fun _ => 0) 500%nat uid_AdminSP uid_SID exvd_pin pw 0%nat 105 0x12345678 V
    (exy_addresses _ _) eq_refl Ho (ext_no_nvme (at_nvme [] exy_path 7)) Hn exvs_takes exvs_bytes (fun _ => eq_refl) exo_kdf_ok Da exy_conforming L1 L2 L3 Hd HV) as P. rewrite C16 in P.
  specialize (P ltac:(lia) (excn_fast 0 ltac:(lia)) ltac:(wf_now) eq_refl ltac:(wf_now) eq_refl W L (exvs_judges _ Lk)). cbv zeta in P |- *. destruct P as (P1 & P2 & P3).
  split; [exact P1|]. split; [exact P2|]. apply P3. vm_compute. discriminate.
Qed.
Print Assumptions ex_C183_sata.
