(** C182 on a concrete Windows machine with a miniport and an NVMe drive that has a PSID and an MSID. *)
From Verif Require Import Base M_Buffer M_Struc M_Ata M_TcgToken M_TcgCommand M_TcgDevice M_TcgSession M_DriveHandle M_Cdb M_SgDriver M_Strings M_LinuxFactory M_TcgOnDrive
  M_WinPass M_WinNvme M_WinInfo M_WinFactory Spec_Drive Spec_LinuxFactory Spec_Sg P_Sg Prop_Sg Spec_WinPass Spec_WinNvme Prop_WinPass Prop_WinNvme Prop_WinDrive Prop_WinInfo
  Spec_WinFactory P_WinFactory Spec_Tcg Spec_TcgCommand Spec_TcgClient Spec_TcgSession P_TcgDevice P_TcgSession Spec_TcgOnDrive P_TcgOnDrive P_TcgOnWin Prop_TcgOnWin Spec_LinuxSystem Prop_LinuxTcg
  Spec_WinSystem P_WinSystem Prop_WinSystem Prop_WinTcg Ex_TcgSession Ex_TcgOnDrive Ex_LinuxSystem Ex_WinInfo Ex_TcgOnWin Ex_WinSystem Inst_Tcg Inst_Linux
  Spec_Challenge P_Challenge Prop_Challenge Spec_Conform Prop_Conform Ex_Conform Spec_NvmeConform P_NvmeConform Prop_NvmeConform Ex_NvmeConform Spec_WinConform P_WinConform Prop_WinConform.

(** the packets sent so far *)
Definition excw_out (e : wev) : bool := match e with WIo c => (wc_code c =? 0x4d008) && (mp_opcode (miniport_decode (wc_in c)) =? 0x81) | _ => false end.
Definition excw_packet (e : wev) : bytes := match e with WIo c => firstn (N.to_nat 512) (mp_data (miniport_decode (wc_in c))) | _ => [] end.
Definition excw_sent (h : whist) : bytes := last (map excw_packet (filter excw_out h)) [].
(** bus type, IDENTIFY, Level 0 discovery, else the answer of Ex_Conform's drive to the last packet sent *)
Definition excw_mini : wsys :=
  {| s_io := fun h => match last h (WClose 0) with
       | WIo c => if wc_code c =? 0x41018 then exi_ans 0 [8; 0; 0; 0; 4; 0; 0; 0] [] 8
                  else if wc_code c =? 0x4d008 then
                    exi_ans 0 (zeros 152 ++ (if mp_opcode (miniport_decode (wc_in c)) =? 0x06 then exy_identify
                                             else if mp_cdw10 (miniport_decode (wc_in c)) =? 0x01000100 then exy_level0 else excf_answer (excw_sent h))) [] 4248
                  else exi_ans 1 [] [] 0
       | _ => exi_ans 0 [] [] 0 end;
     s_open := fun _ => inr 77 |}.
Lemma excw_system : wf_system excw_mini.
Proof.
  intros h. cbn [excw_mini s_io]. destruct (last h (WClose 0)) as [c| |]; try (split; apply wf_nil). destruct (wc_code c =? 0x41018); [split; [wf_lit|apply wf_nil]|].
  destruct (wc_code c =? 0x4d008); [|split; apply wf_nil]. split; [|apply wf_nil]. cbn [wa_out exi_ans]. rewrite wf_app. split; [apply wf_zeros|].
  destruct (_ =? 6); [unfold exy_identify; rewrite !wf_app; repeat split; auto using wf_zeros; wf_lit|]. destruct (_ =? 0x01000100); [apply exy_level0_wf|]. apply excf_answer_wf.
Qed.
(** a security command to ComID 0x1004, either direction *)
Definition excw_security (e : wev) : Prop := exists c, e = WIo c /\ wc_code c = 0x4d008 /\ (mp_opcode (miniport_decode (wc_in c)) =? 0x06) = false
  /\ mp_cdw10 (miniport_decode (wc_in c)) = 0x01100400.
Lemma excw_send_is packet c : mp_send 77 0x1004 packet c -> List.length packet = N.to_nat 512 -> excw_security c /\ excw_out c = true /\ excw_packet c = packet.
Proof.
  intros (q & sent & -> & _ & Eq & Ca & D) L. unfold miniport_carries in Ca. split; [|split].
  - exists q. split; [reflexivity|]. split; [exact Eq|]. rewrite Ca. split; reflexivity.
  - unfold excw_out. rewrite Eq, Ca. reflexivity.
  - unfold excw_packet. rewrite Ca. cbn [mp_data]. cbn [x_data] in D.
    assert (E : sent = fill (zeros (N.to_nat 4096)) packet) by (eapply delivered_unique; [exact D|apply fill_delivered]). rewrite E. unfold fill.
    rewrite (firstn_all2 packet) by (rewrite L; unfold zeros; rewrite repeat_length; lia). rewrite firstn_app, L, Nat.sub_diag. rewrite firstn_O, app_nil_r.
    apply firstn_all2. rewrite L. apply le_n.
Qed.
Lemma excw_recv_is c : mp_recv 77 0x1004 c -> excw_security c /\ excw_out c = false.
Proof.
  intros (q & sent & -> & _ & Eq & Ca & D). unfold miniport_carries in Ca. split.
  - exists q. split; [reflexivity|]. split; [exact Eq|]. rewrite Ca. split; reflexivity.
  - unfold excw_out. rewrite Eq, Ca. reflexivity.
Qed.
Lemma excw_received k c rs packet : mp_send 77 0x1004 packet c -> List.length packet = N.to_nat 512 -> Forall (mp_recv 77 0x1004) rs -> excw_sent (k ++ c :: rs) = packet.
Proof.
  intros Sc L F. destruct (excw_send_is _ _ Sc L) as (_ & O & P). unfold excw_sent. rewrite filter_app. cbn [filter]. rewrite O.
  assert (Q : filter excw_out rs = []).
  { clear O. induction F as [|r rs E _ IH]; [reflexivity|]. destruct (excw_recv_is _ E) as [_ X]. cbn [filter]. rewrite X. exact IH. }
  rewrite Q, map_app. cbn [map]. rewrite P. apply last_last.
Qed.
Lemma excw_last k c rs : excw_security c -> Forall (mp_recv 77 0x1004) rs -> excw_security (last (k ++ c :: rs) (WClose 0)).
Proof.
  intros Hc F. induction rs as [|r rs _] using rev_ind; [rewrite last_last; exact Hc|].
  rewrite app_comm_cons, app_assoc, last_last. apply Forall_app in F as [_ F]. inversion F as [|z w R1 R2]; subst. exact (proj1 (excw_recv_is _ R1)).
Qed.
Lemma excw_answer h : excw_security (last h (WClose 0)) -> s_io excw_mini h = exi_ans 0 (zeros 152 ++ excf_answer (excw_sent h)) [] 4248.
Proof.
  intros (c & E & Ec & Eo & E10). cbn [excw_mini s_io]. rewrite E, Ec, Eo, E10. reflexivity.
Qed.
Lemma excw_firstn_repeat (m n : nat) : firstn m (repeat 0 n) = repeat 0 (Nat.min m n).
Proof. revert n. induction m as [|m IH]; intros [|n]; cbn [firstn repeat Nat.min]; auto. now rewrite IH. Qed.
Lemma excw_page (m n : nat) (b : bytes) : (m <= n)%nat -> firstn m (fill (zeros n) b) = firstn m b ++ zeros (m - List.length b).
Proof.
  intros Hm. unfold fill, zeros. rewrite repeat_length, firstn_app, firstn_firstn, excn_skip, excw_firstn_repeat, firstn_length.
  rewrite (Nat.min_l m n) by exact Hm. f_equal. f_equal. lia.
Qed.
Lemma excw_replies k packet p atoms : List.length packet = N.to_nat 512 -> excf_answer packet = ex_packet p -> wf p -> p = stream atoms -> (List.length p <= 100)%nat ->
  be32_at off_sub_len (firstn 56 (ex_packet p)) = blen p -> be32_at off_outstanding (received (ex_packet p)) = 0 -> has_payload (received (ex_packet p)) ->
  Forall atom_ok atoms -> visible atoms = atoms -> mp_replies excw_mini 77 0x1004 packet k 0 atoms.
Proof.
  intros Lp Ea W Es L B O Pay Ok_ V c rs Sc Rr Lr.
  rewrite (excw_answer _ (excw_last k c rs (proj1 (excw_send_is _ _ Sc Lp)) Rr)), (excw_received k c rs packet Sc Lp Rr), Ea.
  split; [reflexivity|]. intros page D. cbn [wa_out exi_ans] in D. split; [lia|]. intros _.
  assert (Eb : firstn (N.to_nat 2048) page = received (ex_packet p)).
  { assert (Sk : skipn 152 (zeros 152 ++ ex_packet p) = ex_packet p) by (rewrite skipn_app; unfold zeros; rewrite excn_skip, repeat_length; reflexivity).
    rewrite Sk in D. rewrite (delivered_unique _ _ _ _ D (fill_delivered _ _)), excw_page by lia. unfold received. replace (N.to_nat 2048) with 2048%nat by (vm_compute; reflexivity). reflexivity. }
  rewrite Eb. split; [intros [Hw _]; exact (Hw O)|]. split; [exact Pay|]. exists atoms. split; [now apply excf_carries|]. auto.
Qed.
Lemma excw_sync k packet : List.length packet = N.to_nat 512 -> excf_answer packet = ex_packet ex_sync -> mp_replies excw_mini 77 0x1004 packet k 0 excf_sync.
Proof.
  intros Lk Ea. apply (excw_replies k packet ex_sync); [exact Lk|exact Ea|wf_now|reflexivity|apply Nat.leb_le; reflexivity|vm_compute; reflexivity|vm_compute; reflexivity|
    vm_compute; repeat split; discriminate| |reflexivity]. unfold excf_sync, sync_session, status_list. excn_atoms.
Qed.
Lemma excw_ok k packet : List.length packet = N.to_nat 512 -> excf_answer packet = ex_packet (ex_plain 0) -> mp_replies excw_mini 77 0x1004 packet k 0 (no_result 0).
Proof.
  intros Lk Ea. apply (excw_replies k packet (ex_plain 0)); [exact Lk|exact Ea|wf_now|reflexivity|apply Nat.leb_le; reflexivity|vm_compute; reflexivity|vm_compute; reflexivity|
    vm_compute; repeat split; discriminate| |reflexivity]. unfold no_result, status_list. excn_atoms.
Qed.
Lemma excw_no k packet : List.length packet = N.to_nat 512 -> excf_answer packet = ex_packet (ex_plain 1) -> mp_replies excw_mini 77 0x1004 packet k 0 (no_result 1).
Proof.
  intros Lk Ea. apply (excw_replies k packet (ex_plain 1)); [exact Lk|exact Ea|wf_now|reflexivity|apply Nat.leb_le; reflexivity|vm_compute; reflexivity|vm_compute; reflexivity|
    vm_compute; repeat split; discriminate| |reflexivity]. unfold no_result, status_list. excn_atoms.
Qed.
Lemma excw_pin k packet : List.length packet = N.to_nat 512 -> excf_answer packet = ex_packet ex_pin -> mp_replies excw_mini 77 0x1004 packet k 0 (one_cell 3 (Short true false [77; 83; 73; 68])).
Proof.
  intros Lk Ea. apply (excw_replies k packet ex_pin); [exact Lk|exact Ea|wf_now|reflexivity|apply Nat.leb_le; reflexivity|vm_compute; reflexivity|vm_compute; reflexivity|
    vm_compute; repeat split; discriminate| |reflexivity]. unfold one_cell, status_list. excn_atoms.
Qed.
Lemma excw_start_length com ch : List.length (psid_start com ch) = N.to_nat 512.
Proof. unfold psid_start. rewrite frame_length. reflexivity. Qed.
Theorem excw_checks k : mp_checks_psid excw_mini 77 0x1004 k 0 excf_psid 105 0x12345678 1.
Proof.
  split; [|split].
  - exists (Short false false [105]), (Short false false [0x12; 0x34; 0x56; 0x78]), [].
    split; [split; [split; [wf_now|reflexivity]|right; exists [105]; auto]|]. split; [split; [split; [wf_now|reflexivity]|right; exists [0x12; 0x34; 0x56; 0x78]; auto]|].
    apply excw_sync; [apply excw_start_length|]. vm_compute. reflexivity.
  - intros ch W L Ne. apply excw_no; [apply excw_start_length|]. now apply excn_refuses.
  - intros c rs _ _. apply excw_ok; [rewrite frame_length; reflexivity|]. vm_compute. reflexivity.
Qed.
Theorem excw_shows k : mp_shows_msid excw_mini 77 0x1004 k 0 [77; 83; 73; 68].
Proof.
  exists (Short false false [105]), 105, (Short false false [0x12; 0x34; 0x56; 0x78]), 0x12345678, [], (Short true false [77; 83; 73; 68]).
  split; [split; [split; [wf_now|reflexivity]|right; exists [105]; auto]|]. split; [split; [split; [wf_now|reflexivity]|right; exists [0x12; 0x34; 0x56; 0x78]; auto]|].
  split; [split; [split; [wf_now|reflexivity]|auto]|]. split; [apply excw_sync; [rewrite frame_length; reflexivity|vm_compute; reflexivity]|].
  intros c rs _ _. apply excw_pin; [rewrite frame_length; reflexivity|vm_compute; reflexivity].
Qed.

(** the opening *)
Lemma excw_accepted : exists d g, accepted_by excw_mini exi_A [] 5 KNvmeWin d g /\ wd_scsi d = 77.
Proof.
  do 2 eexists. split.
  - do 2 eexists. exists []. do 2 eexists. split; [vm_compute; reflexivity|]. split; [reflexivity|]. split; [constructor|]. vm_compute. reflexivity.
  - reflexivity.
Qed.
Definition excw_check (S : wsys) : bool := match snd (win_open_by_handle S exi_A [] 5 (str "d")) with
  | Ok x => match f_drv x, win_device_of x (fun _ _ => 0) with Some _, Ok _ => true | _, _ => false end
            && (let a := s_io S (fst (win_open_by_handle S exi_A [] 5 (str "d"))) in (wa_err a =? 0) && if list_eq_dec N.eq_dec (wa_out a) (zeros 152 ++ exy_level0) then true else false)
  | _ => false end.
Lemma excw_checked S : excw_check S = true -> exists x d0 h0 cs dev h', win_open_by_handle S exi_A [] 5 (str "d") = (h', Ok x) /\ f_drv x = Some (d0, h0, cs)
  /\ win_device_of x (fun _ _ => 0) = Ok dev /\ win_ok (s_io S h') /\ wa_out (s_io S h') = zeros 152 ++ exy_level0.
Proof.
  intros H. unfold excw_check in H. destruct (win_open_by_handle S exi_A [] 5 (str "d")) as [h' r]. cbn [fst snd] in H.
  destruct r as [x| | |]; try discriminate H. apply andb_prop in H as [H1 H2].
  destruct (f_drv x) as [[[d0 h0] cs]|] eqn:EV; [|discriminate H1]. destruct (win_device_of x _) as [dev| | |] eqn:ED; try discriminate H1.
  cbv zeta in H2. apply andb_prop in H2 as [H2 H3]. exists x, d0, h0, cs, dev, h'. split; [reflexivity|].
  split; [exact EV|]. split; [exact ED|]. split; [apply N.eqb_eq; exact H2|]. destruct (list_eq_dec N.eq_dec (wa_out (s_io S h')) (zeros 152 ++ exy_level0)) as [Q|]; [exact Q|discriminate H3].
Qed.
Lemma excw_computed : excw_check excw_mini = true.
Proof. vm_compute. reflexivity. Qed.

(** Every password: the PSID reverts the drive, any other is refused with status 1 (NOT_AUTHORIZED); the MSID is read. *)
Theorem ex_C182 pw : wf pw -> 1 <= blen pw <= 400 -> exists x d0 h0 cs dev, f_drv x = Some (d0, h0, cs) /\ win_device_of x (fun _ _ => 0) = Ok dev /\
  let E := drive_env (win_drv excw_mini exi_A d0 h0) (f_dh x) cs slept exo_kdf (fun _ => 0) 500 in
  let outcome := snd (revert_tper E dev pw true false []) in
  (pw = excf_psid -> outcome = Ok tt) /\ (pw <> excf_psid -> outcome = Err (ETcg 1)) /\ snd (get_default_password E dev []) = Ok [77; 83; 73; 68].
Proof.
  intros W L. destruct (excw_checked _ excw_computed) as (x & d0 & h0 & cs & dev & h' & Ho & Hdr & Hd & Hs & Ho2). destruct excw_accepted as (d & g & Ac & E77). destruct inst_listed as (L1 & L2 & L3).
  exists x, d0, h0, cs, dev. split; [exact Hdr|]. split; [exact Hd|].
  assert (C16 : be16_at 4 inst_opal2 = 0x1004) by (vm_compute; reflexivity).
  assert (Sk : skipn 152 (zeros 152 ++ exy_level0) = exy_level0) by (rewrite skipn_app; unfold zeros; rewrite excn_skip, repeat_length; reflexivity).
  assert (Dp : delivered (zeros (N.to_nat 4096)) (skipn 152 (wa_out (s_io excw_mini h'))) (fill (zeros (N.to_nat 4096)) exy_level0)) by (rewrite Ho2, Sk; apply fill_delivered).
  assert (L0 : level0_answer (firstn (N.to_nat 2048) (fill (zeros (N.to_nat 4096)) exy_level0)) exy_features).
  { rewrite excw_page by lia. pose proof exy_conforming as Q. unfold fill in Q. unfold zeros in Q at 1 2. rewrite repeat_length, excn_skip in Q. replace (N.to_nat 2048) with 2048%nat by (vm_compute; reflexivity). exact Q. }
  pose proof (C182_psid_from_handle excw_mini exi_A [] 5 (str "d") d g h' x _ exy_features inst_opal2 (fun _ _ => 0) dev slept exo_kdf (fun _ => 0) 500%nat d0 h0 cs excf_psid pw false 0%nat 105 0x12345678 1
    excw_system Ac Ho (fun _ => eq_refl) exo_kdf_ok Hs Dp L0 L1 L2 L3 Hd Hdr) as P. rewrite C16, E77 in P.
  specialize (P ltac:(lia) (excn_fast 0 ltac:(lia)) W L (excw_checks _) ltac:(lia)). cbv zeta in P |- *. destruct P as [P1 P2]. split; [exact P1|]. split; [exact P2|].
  pose proof (C182_password_from_handle excw_mini exi_A [] 5 (str "d") d g h' x _ exy_features inst_opal2 (fun _ _ => 0) dev slept exo_kdf (fun _ => 0) 500%nat d0 h0 cs 0%nat [77; 83; 73; 68]
    excw_system Ac Ho (fun _ => eq_refl) exo_kdf_ok Hs Dp L0 L1 L2 L3 Hd Hdr) as Q. rewrite C16, E77 in Q.
  exact (Q ltac:(lia) (excn_fast 0 ltac:(lia)) (excw_shows _)).
Qed.
Print Assumptions ex_C182.
