(** C184 and C185 on a concrete Linux machine with a SATA drive: the drive's dialogue is any function from the packet sent last to the answer. *)
From Verif Require Import Base M_Buffer M_Struc M_Ata M_TcgToken M_TcgCommand M_TcgDevice M_TcgSession M_DriveHandle M_Cdb M_SgDriver M_SgHandle M_NvmeLinux M_Strings M_LinuxInfo M_LinuxFactory
  M_LinuxSystem M_TcgOnDrive Spec_Drive Prop_Drive Spec_LinuxFactory P_LinuxFactory Prop_LinuxFactory Spec_NvmeLinux Spec_Sg P_Sg Prop_Sg
  Prop_NvmeLinux Prop_SgHandle Spec_Tcg Spec_TcgCommand Spec_TcgClient Spec_TcgSession Spec_TcgOnDrive P_TcgDevice P_TcgSession P_TcgOnDrive Spec_LinuxSystem P_LinuxSystem Prop_LinuxSystem Prop_LinuxTcg
  Prop_TcgOnDrive Spec_LinuxSata Prop_LinuxSataTcg Ex_LinuxSata Ex_TcgSession Ex_TcgOnDrive Ex_LinuxSystem Inst_Tcg Inst_Linux
  Spec_Challenge P_Challenge Prop_Challenge Spec_Conform Prop_Conform Ex_Conform Spec_NvmeConform P_NvmeConform Prop_NvmeConform Ex_NvmeConform Spec_SataConform P_SataConform Prop_SataConform
  Ex_SataConform Ex_Verdict M_WinPass Spec_WinPass Prop_WinPass Spec_SidConform Prop_SidConform Ex_SidConform Spec_TableConform Prop_TableConform Prop_TableDrive Ex_TableConform.

Definition exbs_sata (answer : bytes -> bytes) (h : sg_hist) : sg_ans :=
  {| an_errno := 0; an_ret := 0; an_sense := []; an_status := Some 0;
     an_in := if (List.length h =? 1)%nat then exy_ata_identify else if (List.length h =? 2)%nat then exy_level0 else answer (last (sata_received h) []) |}.
Definition exbs_sys (answer : bytes -> bytes) : system := exy_sys exy_refuse_nvme (exbs_sata answer).
Lemma exbs_takes answer : takes_security (exbs_sata answer).
Proof. intros k c s _. repeat split; reflexivity. Qed.
Lemma exbs_bytes answer : (forall c, wf (answer c)) -> forall k, wf (an_in (exbs_sata answer k)).
Proof. intros W k. cbn [exbs_sata an_in]. destruct (_ =? 1)%nat; [wf_lit|]. destruct (_ =? 2)%nat; [apply exy_level0_wf|apply W]. Qed.
Lemma exbs_replies answer k packet p atoms : (2 <= List.length k)%nat -> answer packet = ex_packet p -> wf p -> p = stream atoms -> (List.length p <= 100)%nat ->
  be32_at off_sub_len (firstn 56 (ex_packet p)) = blen p -> be32_at off_outstanding (received (ex_packet p)) = 0 -> has_payload (received (ex_packet p)) ->
  Forall atom_ok atoms -> visible atoms = atoms -> sata_replies (exbs_sata answer) 0x1004 packet k 0 atoms.
Proof.
  intros Lk Ea W Es L B O Pay Ok_ V c rs Sc Rr Lr buf D.
  assert (X : an_in (exbs_sata answer (k ++ c :: rs)) = ex_packet p).
  { unfold exbs_sata. cbn [an_in]. rewrite (excs_received k c rs packet Sc Rr), Ea, app_length. cbn [List.length].
    replace ((List.length k + S (List.length rs) =? 1)%nat) with false by (symmetry; apply Nat.eqb_neq; lia).
    replace ((List.length k + S (List.length rs) =? 2)%nat) with false by (symmetry; apply Nat.eqb_neq; lia). reflexivity. }
  rewrite X in D. split; [lia|]. intros _.
  assert (Eb : buf = received (ex_packet p)).
  { apply (delivered_unique _ _ _ _ D). assert (Lz : List.length (zeros 2048) = 2048%nat) by apply repeat_length.
    replace (received (ex_packet p)) with (fill (zeros 2048) (ex_packet p)); [apply fill_delivered|].
    unfold fill, received. rewrite Lz. f_equal. unfold zeros. apply excn_skip. }
  subst buf. split; [intros [Hw _]; exact (Hw O)|]. split; [exact Pay|]. exists atoms. split; [now apply excf_carries|]. auto.
Qed.
Ltac exbs_go p Lk Ea := apply (exbs_replies _ _ _ p); [exact Lk|exact Ea|wf_now|reflexivity|apply Nat.leb_le; reflexivity|vm_compute; reflexivity|vm_compute; reflexivity|
    vm_compute; repeat split; discriminate| |reflexivity].
Lemma exbs_sync answer k packet : (2 <= List.length k)%nat -> answer packet = ex_packet ex_sync -> sata_replies (exbs_sata answer) 0x1004 packet k 0 excf_sync.
Proof. intros Lk Ea. exbs_go ex_sync Lk Ea. unfold excf_sync, sync_session, status_list. excn_atoms. Qed.
Lemma exbs_plain answer (st : N) k packet : st = 0 \/ st = 1 -> (2 <= List.length k)%nat -> answer packet = ex_packet (ex_plain st) -> sata_replies (exbs_sata answer) 0x1004 packet k 0 (no_result st).
Proof.
  intros [-> | ->] Lk Ea; [exbs_go (ex_plain 0) Lk Ea|exbs_go (ex_plain 1) Lk Ea]; unfold no_result, status_list; excn_atoms.
Qed.
Lemma exbs_row answer k packet : (2 <= List.length k)%nat -> answer packet = ex_packet extb_row -> sata_replies (exbs_sata answer) 0x1004 packet k 0 (reply_atoms (Shown [extb_name; extb_max])).
Proof. intros Lk Ea. exbs_go extb_row Lk Ea. unfold reply_atoms, row, cell_atoms, status_list. cbn [map concat app extb_name extb_max c_name c_value]. excn_atoms. Qed.
Lemma exbs_opened answer x : open_by_path (linux (exbs_sys answer)) [] exy_path = (fst (open_by_path (linux (exbs_sys answer)) [] exy_path), Ok x) -> l_driver_name x = str "LinuxScsiDriver" ->
  (2 <= List.length (sg_ioctls (exbs_sys answer) (at_sg [] exy_path 7) x))%nat.
Proof.
  intros Ho Hn. destruct (sg_opened (exbs_sys answer) [] exy_path _ x 7 (exy_addresses _ _) eq_refl Ho (ext_no_nvme (at_nvme [] exy_path 7)) Hn) as (s1 & srest & c1 & rest & id & E & _).
  rewrite E. cbn [app List.length]. rewrite app_length. cbn [List.length]. lia.
Qed.
Lemma exbs_granted answer k start : (2 <= List.length k)%nat -> answer start = ex_packet ex_sync ->
  exists ah at_ more, unsigned_atom ah 105 /\ unsigned_atom at_ 0x12345678 /\ sata_replies (exbs_sata answer) 0x1004 start k 0 (sync_session ah at_ more).
Proof.
  intros Lk Ea. exists (Short false false [105]), (Short false false [0x12; 0x34; 0x56; 0x78]), [].
  split; [split; [split; [wf_now|reflexivity]|right; exists [105]; auto]|]. split; [split; [split; [wf_now|reflexivity]|right; exists [0x12; 0x34; 0x56; 0x78]; auto]|]. now apply exbs_sync.
Qed.

(** ---- C184 ---- *)
Lemma exsi_answer_wf pin c : wf (exsi_answer pin c).
Proof. unfold exsi_answer. destruct (_ =? _); [destruct (list_eq_dec _ _ _)|]; apply excf_packet_wf; wf_now. Qed.
Theorem exbs_checks pin k : wf pin -> 1 <= blen pin <= 400 -> (2 <= List.length k)%nat -> sata_checks_sid (exbs_sata (exsi_answer pin)) 0x1004 k 0 pin 105 0x12345678 1.
Proof.
  intros Wp Lp Lk. split; [|split].
  - apply exbs_granted; [exact Lk|]. unfold exsi_answer. rewrite (exsi_started pin Wp Lp), N.eqb_refl. destruct (list_eq_dec _ _ _) as [_|X]; [reflexivity|now elim X].
  - intros ch W L Ne. apply exbs_plain; [now right|exact Lk|]. unfold exsi_answer. rewrite (exsi_started ch W L), N.eqb_refl. destruct (list_eq_dec _ _ _) as [X|_]; [|reflexivity].
    elim Ne. now apply exsi_differ.
  - intros c rs _ _. apply exbs_plain; [now left|rewrite app_length; lia|]. unfold exsi_answer. replace (nth 73 _ 0 =? 0xFF) with false by (vm_compute; reflexivity). reflexivity.
Qed.
Lemma exbs_check : sata_check (exbs_sys (exsi_answer exsi_short)) = true /\ sata_check (exbs_sys (exsi_answer exsi_long)) = true /\ sata_check (exbs_sys extb_answer) = true.
Proof. vm_compute. auto. Qed.
Lemma exbs_run pin pw : sata_check (exbs_sys (exsi_answer pin)) = true -> wf pin -> 1 <= blen pin <= 400 -> wf pw -> pw <> [] -> exists x V d, l_drv x = Some V /\ device_of x (fun _ _ => 0) = Ok d /\
  let outcome := snd (revert_tper (drive_env V (l_dh x) (l_calls x) slept exsi_kdf (fun _ => 0) 500) d pw false false []) in
  let presented := [0xD0; 32] ++ exsi_kdf (firstn 32 pw) [] in
  (presented = pin -> outcome = Ok tt) /\ (presented <> pin -> outcome = Err (ETcg 1)) /\ (blen pin <= 32 -> outcome = Err (ETcg 1)).
Proof.
  intros Ck Wn Ln W Np. destruct (sata_checked _ Ck) as (x & V & d & Ho & Hn & HV & Hd & Da). destruct inst_listed as (L1 & L2 & L3).
  exists x, V, d. split; [exact HV|]. split; [exact Hd|]. pose proof (exbs_opened _ x Ho Hn) as Lk.
  assert (C16 : be16_at 4 inst_opal2 = 0x1004) by (vm_compute; reflexivity).
  pose proof (C184_sata_from_path (exbs_sys (exsi_answer pin)) [] exy_path _ x 7 inst_level0 exy_features inst_opal2 (fun _ _ => 0) d slept exsi_kdf (fun _ => 0) 500%nat pin pw false 0%nat 105 0x12345678 1 V
    (exy_addresses _ _) eq_refl Ho (ext_no_nvme (at_nvme [] exy_path 7)) Hn (exbs_takes _) (exbs_bytes _ (exsi_answer_wf pin)) (fun _ => eq_refl) exsi_kdf_ok Da exy_conforming L1 L2 L3 Hd HV) as P. rewrite C16 in P.
  exact (P ltac:(lia) (excn_fast 0 ltac:(lia)) W Np Wn (proj1 Ln) (exbs_checks pin _ Wn Ln Lk) ltac:(split; [discriminate|reflexivity])).
Qed.
(** The PIN "1234" is refused whatever the password; the 34-byte PIN made of "1234" is reverted with "1234". *)
Theorem ex_C184_sata_short pw : wf pw -> pw <> [] -> exists x V d, l_drv x = Some V /\ device_of x (fun _ _ => 0) = Ok d /\
  snd (revert_tper (drive_env V (l_dh x) (l_calls x) slept exsi_kdf (fun _ => 0) 500) d pw false false []) = Err (ETcg 1).
Proof.
  intros W Np. destruct (exbs_run exsi_short pw (proj1 exbs_check) ltac:(wf_now) ltac:(vm_compute; split; discriminate) W Np) as (x & V & d & A & B & _ & _ & Q).
  exists x, V, d. split; [exact A|]. split; [exact B|]. apply Q. vm_compute. discriminate.
Qed.
Theorem ex_C184_sata_long : exists x V d, l_drv x = Some V /\ device_of x (fun _ _ => 0) = Ok d /\
  snd (revert_tper (drive_env V (l_dh x) (l_calls x) slept exsi_kdf (fun _ => 0) 500) d [49; 50; 51; 52] false false []) = Ok tt.
Proof.
  destruct (exbs_run exsi_long [49; 50; 51; 52] (proj1 (proj2 exbs_check)) ltac:(wf_now) ltac:(vm_compute; split; discriminate) ltac:(wf_now) ltac:(discriminate)) as (x & V & d & A & B & Q & _).
  exists x, V, d. split; [exact A|]. split; [exact B|]. apply Q. reflexivity.
Qed.
Print Assumptions ex_C184_sata_long.

(** ---- C185 ---- *)
Lemma extb_answer_wf c : wf (extb_answer c).
Proof. unfold extb_answer. destruct (_ =? _); [|destruct (_ =? _)]; apply excf_packet_wf; wf_now. Qed.
Theorem exbs_lets k : (2 <= List.length k)%nat -> sata_lets_read (exbs_sata extb_answer) 0x1004 k 0 (session_start_packet 0x1004 extb_lsp None extb_anybody) 105 0x12345678 extb_queries extb_answers.
Proof.
  intros Lk. split; [apply exbs_granted; [exact Lk|vm_compute; reflexivity]|].
  intros c1 k1 _ _. constructor; [apply exbs_row; [rewrite app_length; lia|vm_compute; reflexivity]|].
  intros c2 k2 _ _. constructor; [apply exbs_plain; [now right|rewrite !app_length; lia|vm_compute; reflexivity]|].
  intros c3 k3 _ _. constructor; [apply exbs_row; [rewrite !app_length; lia|vm_compute; reflexivity]|].
  intros c4 k4 _ _. constructor.
Qed.
Theorem ex_C185_sata : exists x V d s h1, l_drv x = Some V /\ device_of x (fun _ _ => 0) = Ok d /\
  let E := drive_env V (l_dh x) (l_calls x) slept extb_kdf (fun _ => 0) 500 in
  session_start E d new_session extb_lsp [] (AUid extb_anybody) [] = (s, h1, Ok tt) /\ Forall2 shows (read_all E d s h1 extb_queries) extb_answers.
Proof.
  destruct (sata_checked _ (proj2 (proj2 exbs_check))) as (x & V & d & Ho & Hn & HV & Hd & Da). destruct inst_listed as (L1 & L2 & L3). pose proof (exbs_opened _ x Ho Hn) as Lk.
  assert (C16 : be16_at 4 inst_opal2 = 0x1004) by (vm_compute; reflexivity).
  pose proof (C185_sata_from_path (exbs_sys extb_answer) [] exy_path _ x 7 inst_level0 exy_features inst_opal2 (fun _ _ => 0) d slept extb_kdf (fun _ => 0) 500%nat extb_lsp [] extb_anybody false 0%nat 105 0x12345678
    extb_queries extb_answers V (exy_addresses _ _) eq_refl Ho (ext_no_nvme (at_nvme [] exy_path 7)) Hn (exbs_takes _) (exbs_bytes _ extb_answer_wf) (fun _ => eq_refl) extb_kdf_ok Da exy_conforming L1 L2 L3 Hd HV) as P.
  rewrite C16 in P.
  destruct (P ltac:(lia) (excn_fast 0 ltac:(lia)) ltac:(wf_now) eq_refl ltac:(wf_now) ltac:(wf_now) eq_refl (proj1 extb_ok) (proj2 extb_ok) (exbs_lets _ Lk)) as (s & h1 & St & Sh).
  exists x, V, d, s, h1. split; [exact HV|]. split; [exact Hd|]. split; [exact St|exact Sh].
Qed.
Print Assumptions ex_C185_sata.
