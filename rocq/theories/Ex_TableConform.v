(** C185 on a concrete Linux machine: the LockingInfo row of an NVMe drive is read anonymously, the PIN of SID is not shown. *)
From Verif Require Import Base M_Buffer M_Struc M_Ata M_TcgToken M_TcgCommand M_TcgDevice M_TcgSession M_DriveHandle M_Cdb M_SgDriver M_SgHandle M_NvmeLinux M_Strings M_LinuxInfo M_LinuxFactory
  M_LinuxSystem M_TcgOnDrive Spec_Drive Prop_Drive Spec_LinuxFactory P_LinuxFactory Prop_LinuxFactory Spec_NvmeLinux Spec_Sg P_Sg Prop_Sg
  Prop_NvmeLinux Prop_SgHandle Spec_Tcg Spec_TcgCommand Spec_TcgClient Spec_TcgSession Spec_TcgOnDrive P_TcgDevice P_TcgSession P_TcgOnDrive Spec_LinuxSystem P_LinuxSystem Prop_LinuxSystem Prop_LinuxTcg
  Prop_TcgOnDrive Ex_TcgSession Ex_TcgOnDrive Ex_LinuxSystem Inst_Tcg Inst_Linux
  Spec_Challenge P_Challenge Prop_Challenge Spec_Conform Prop_Conform Ex_Conform Spec_NvmeConform P_NvmeConform Prop_NvmeConform Ex_NvmeConform Ex_Verdict Spec_SataConform Spec_TableConform Prop_TableConform Prop_TableDrive.

Definition extb_lsp : bytes := [0; 0; 2; 5; 0; 0; 0; 2].  (* the Locking SP *)
Definition extb_anybody : bytes := [0; 0; 0; 9; 0; 0; 0; 1].
Definition extb_info : query := {| q_table := [0; 0; 8; 1; 0; 0; 0; 1]; q_first := 1; q_last := 4 |}.  (* LockingInfo *)
Definition extb_sid : query := {| q_table := [0; 0; 0; 0x0B; 0; 0; 0; 1]; q_first := 3; q_last := 3 |}.  (* C_PIN_SID *)
(** Name = "Opal", MaxRanges = 258 *)
Definition extb_name : cell := {| c_name := Tiny false 1; c_number := 1; c_value := Short true false [79; 112; 97; 108] |}.
Definition extb_max : cell := {| c_name := Tiny false 4; c_number := 4; c_value := Short false false [1; 2] |}.
Definition extb_row : bytes := [0xF0; 0xF0; 0xF2; 1; 0xA4; 79; 112; 97; 108; 0xF3; 0xF2; 4; 0x82; 1; 2; 0xF3; 0xF1; 0xF1; 0xF9; 0xF0; 0; 0; 0; 0xF1].
(** a StartSession is granted; a Get of LockingInfo is answered by the row, everything else refused *)
Definition extb_answer (cmd : bytes) : bytes :=
  if nth 73 cmd 0 =? 0xFF then ex_packet ex_sync else if nth 60 cmd 0 =? 8 then ex_packet extb_row else ex_packet (ex_plain 1).
Definition extb_nvme (h : nv_hist) : nv_ans :=
  {| na_errno := 0; na_ret := 0; na_result := 0;
     na_in := if (List.length h =? 1)%nat then exy_identify else if (List.length h =? 2)%nat then exy_level0 else extb_answer (last (nvme_received h) []) |}.
Definition extb_sys : system := exy_sys extb_nvme exy_refuse_sg.
Definition extb_kdf (y s : bytes) : bytes := zeros 32.
Lemma extb_kdf_ok y s : List.length (extb_kdf y s) = 32%nat /\ wf (extb_kdf y s).
Proof. split; [reflexivity|apply wf_zeros]. Qed.
Lemma extb_bytes : forall k, wf (na_in (extb_nvme k)).
Proof.
  intros k. cbn [extb_nvme na_in]. destruct (_ =? 1)%nat; [unfold exy_identify; rewrite !wf_app; repeat split; auto using wf_zeros; wf_lit|].
  destruct (_ =? 2)%nat; [apply exy_level0_wf|]. unfold extb_answer. destruct (_ =? _); [|destruct (_ =? _)]; apply excf_packet_wf; wf_now.
Qed.
Lemma extb_replies k packet p atoms : (2 <= List.length k)%nat -> extb_answer packet = ex_packet p -> wf p -> p = stream atoms -> (List.length p <= 100)%nat ->
  be32_at off_sub_len (firstn 56 (ex_packet p)) = blen p -> be32_at off_outstanding (received (ex_packet p)) = 0 -> has_payload (received (ex_packet p)) ->
  Forall atom_ok atoms -> visible atoms = atoms -> nvme_replies extb_nvme 7 0x1004 packet k 0 atoms.
Proof.
  intros Lk Ea W Es L B O Pay Ok_ V c rs Sc Rr Lr.
  assert (X : extb_nvme (k ++ c :: rs) = {| na_errno := 0; na_ret := 0; na_result := 0; na_in := ex_packet p |}).
  { unfold extb_nvme. rewrite (excn_received k c rs packet Sc Rr), Ea, app_length. cbn [List.length].
    replace ((List.length k + S (List.length rs) =? 1)%nat) with false by (symmetry; apply Nat.eqb_neq; lia).
    replace ((List.length k + S (List.length rs) =? 2)%nat) with false by (symmetry; apply Nat.eqb_neq; lia). reflexivity. }
  rewrite X. cbn [na_in]. split; [split; reflexivity|]. intros buf D. split; [lia|]. intros _.
  assert (Eb : buf = received (ex_packet p)).
  { apply (delivered_unique _ _ _ _ D). assert (Lz : List.length (zeros 2048) = 2048%nat) by apply repeat_length.
    replace (received (ex_packet p)) with (fill (zeros 2048) (ex_packet p)); [apply fill_delivered|].
    unfold fill, received. rewrite Lz. f_equal. unfold zeros. apply excn_skip. }
  subst buf. split; [intros [Hw _]; exact (Hw O)|]. split; [exact Pay|]. exists atoms. split; [now apply excf_carries|]. auto.
Qed.
Ltac extb_go p Lk Ea := apply (extb_replies _ _ p); [exact Lk|exact Ea|wf_now|reflexivity|apply Nat.leb_le; reflexivity|vm_compute; reflexivity|vm_compute; reflexivity|
    vm_compute; repeat split; discriminate| |reflexivity].
Lemma extb_sync k packet : (2 <= List.length k)%nat -> extb_answer packet = ex_packet ex_sync -> nvme_replies extb_nvme 7 0x1004 packet k 0 excf_sync.
Proof. intros Lk Ea. extb_go ex_sync Lk Ea. unfold excf_sync, sync_session, status_list. excn_atoms. Qed.
Lemma extb_shown k packet : (2 <= List.length k)%nat -> extb_answer packet = ex_packet extb_row -> nvme_replies extb_nvme 7 0x1004 packet k 0 (reply_atoms (Shown [extb_name; extb_max])).
Proof. intros Lk Ea. extb_go extb_row Lk Ea. unfold reply_atoms, row, cell_atoms, status_list. cbn [map concat app extb_name extb_max c_name c_value]. excn_atoms. Qed.
Lemma extb_no k packet : (2 <= List.length k)%nat -> extb_answer packet = ex_packet (ex_plain 1) -> nvme_replies extb_nvme 7 0x1004 packet k 0 (reply_atoms (Denied 1)).
Proof. intros Lk Ea. extb_go (ex_plain 1) Lk Ea. unfold reply_atoms, no_result, status_list. excn_atoms. Qed.

Definition extb_queries : list query := [extb_info; extb_sid; extb_info].
Definition extb_answers : list reply := [Shown [extb_name; extb_max]; Denied 1; Shown [extb_name; extb_max]].
Theorem extb_lets k : (2 <= List.length k)%nat -> nvme_lets_read extb_nvme 7 0x1004 k 0 (session_start_packet 0x1004 extb_lsp None extb_anybody) 105 0x12345678 extb_queries extb_answers.
Proof.
  intros Lk. split.
  - exists (Short false false [105]), (Short false false [0x12; 0x34; 0x56; 0x78]), [].
    split; [split; [split; [wf_now|reflexivity]|right; exists [105]; auto]|]. split; [split; [split; [wf_now|reflexivity]|right; exists [0x12; 0x34; 0x56; 0x78]; auto]|].
    apply extb_sync; [exact Lk|vm_compute; reflexivity].
  - intros c1 k1 _ _. constructor; [apply extb_shown; [rewrite app_length; lia|vm_compute; reflexivity]|].
    intros c2 k2 _ _. constructor; [apply extb_no; [rewrite !app_length; lia|vm_compute; reflexivity]|].
    intros c3 k3 _ _. constructor; [apply extb_shown; [rewrite !app_length; lia|vm_compute; reflexivity]|].
    intros c4 k4 _ _. constructor.
Qed.
Lemma extb_ok : Forall query_ok extb_queries /\ Forall reply_ok extb_answers.
Proof.
  assert (A : query_ok extb_info) by (split; [wf_now|split; [reflexivity|split; reflexivity]]). assert (B : query_ok extb_sid) by (split; [wf_now|split; [reflexivity|split; reflexivity]]).
  assert (C : reply_ok (Shown [extb_name; extb_max])).
  { constructor; [split; [split; [reflexivity|left; reflexivity]|split; [wf_now|reflexivity]]|]. constructor; [split; [split; [reflexivity|left; reflexivity]|split; [wf_now|reflexivity]]|constructor]. }
  assert (D : reply_ok (Denied 1)) by (split; [discriminate|reflexivity]).
  split; repeat (constructor; [assumption|]); constructor.
Qed.
Lemma extb_check : nvme_check extb_sys = true.
Proof. vm_compute. reflexivity. Qed.
(** The three calls: the row, NOT_AUTHORIZED, and the row again; the tokens 4 and 8 of the row are "Opal" and 258. *)
Theorem ex_C185 : exists x V d s h1, l_drv x = Some V /\ device_of x (fun _ _ => 0) = Ok d /\
  let E := drive_env V (l_dh x) (l_calls x) slept extb_kdf (fun _ => 0) 500 in
  session_start E d new_session extb_lsp [] (AUid extb_anybody) [] = (s, h1, Ok tt) /\
  exists a b c, read_all E d s h1 extb_queries = [Ok (Some a, None); Ok (Some b, Some (ETcg 1)); Ok (Some c, None)]
  /\ exists name max, get_token a 4 = Ok (Some name) /\ get_string name = Ok (str "Opal") /\ get_token a 8 = Ok (Some max) /\ get_uint32 max = Ok 258.
Proof.
  destruct (nvme_checked _ extb_check) as (x & V & d & Ho & Hn & HV & Hd & Hs & Da). destruct inst_listed as (L1 & L2 & L3).
  assert (Lk : (2 <= List.length (nvme_ioctls extb_sys (at_nvme [] exy_path 7) x))%nat).
  { destruct (nvme_opened extb_sys [] exy_path _ x 7 (exy_addresses _ _) eq_refl Ho Hn) as (c1 & c2 & id & ans' & E & _). rewrite E. apply le_n. }
  assert (C16 : be16_at 4 inst_opal2 = 0x1004) by (vm_compute; reflexivity).
  pose proof (C185_nvme_from_path extb_sys [] exy_path _ x 7 inst_level0 exy_features inst_opal2 (fun _ _ => 0) d slept extb_kdf (fun _ => 0) 500%nat extb_lsp [] extb_anybody false 0%nat 105 0x12345678
    extb_queries extb_answers V (exy_addresses _ _) eq_refl Ho Hn extb_bytes (fun _ => eq_refl) extb_kdf_ok Hs Da exy_conforming L1 L2 L3 Hd HV) as P. rewrite C16 in P.
  destruct (P ltac:(lia) (excn_fast 0 ltac:(lia)) ltac:(wf_now) eq_refl ltac:(wf_now) ltac:(wf_now) eq_refl (proj1 extb_ok) (proj2 extb_ok) (extb_lets _ Lk)) as (s & h1 & St & Sh).
  exists x, V, d, s, h1. split; [exact HV|]. split; [exact Hd|]. cbv zeta. split; [exact St|].
  set (E := drive_env V (l_dh x) (l_calls x) slept extb_kdf (fun _ => 0) 500) in *. revert Sh. generalize (read_all E d s h1 extb_queries). unfold extb_answers.
  intros l Sh. inversion Sh as [|r1 ? l1 ? S1 Sh1]; subst. inversion Sh1 as [|r2 ? l2 ? S2 Sh2]; subst. inversion Sh2 as [|r3 ? l3 ? S3 Sh3]; subst. inversion Sh3; subst.
  destruct S1 as (a & -> & _ & Cl). destruct S2 as (b & ->). destruct S3 as (c & -> & _). exists a, b, c. split; [reflexivity|].
  destruct (Cl 0%nat extb_name eq_refl) as (_ & name & _ & T1 & _ & Sn & _). destruct (Cl 1%nat extb_max eq_refl) as (_ & max & _ & T2 & _ & _ & Un).
  exists name, max. split; [exact T1|]. split; [apply (Sn (str "Opal")); split; [split; [wf_now|reflexivity]|split; reflexivity]|]. split; [exact T2|].
  apply (Un 258); [|reflexivity]. split; [split; [wf_now|reflexivity]|]. right. exists [1; 2]. split; reflexivity.
Qed.
Print Assumptions ex_C185.
