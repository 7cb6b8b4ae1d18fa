(** C188 on the machine of Ex_TcgAlone: two NVMe drives in use at once, each answering only what is asked on its own descriptor; the PSID,
    and only the PSID, reverts the second one in a program that sends packets to the first one, reads its log page and lists the drives
    before every packet. *)
From Verif Require Import Base Spec_Tcg M_Buffer M_Struc M_Layouts M_Ata M_TcgToken M_TcgCommand M_TcgDevice M_TcgSession M_TcgProgram M_DriveHandle M_TcgOnDrive M_Cdb M_SgDriver M_SgHandle M_NvmeLinux M_Strings M_LinuxInfo
  M_LinuxFactory M_LinuxVolume M_LinuxSystem M_LinuxMachine Prop_NvmeLinux Prop_LinuxFactory Spec_LinuxMachine Spec_NvmeLinux Spec_Sg P_Sg Prop_Sg P_TcgOnDrive P_LinuxSystem P_TcgSession Prop_TcgOnDrive P_LinuxVolume P_Sg Prop_LinuxTcg  Inst_Tcg Spec_TcgOnDrive Spec_TcgCommand Spec_TcgClient Spec_TcgSession
  Spec_Challenge Prop_Challenge Spec_Conform Spec_NvmeConform Ex_TcgSession Ex_TcgOnDrive Ex_LinuxSystem Ex_Challenge Ex_Conform Ex_NvmeConform Ex_Alone Spec_Alone Spec_TcgAlone Ex_TcgAlone
  Spec_Apart Prop_Apart.

Example exap_fresh : fresh_descriptors extc.
Proof.
  intros g path fd other H (g1 & g2 & -> & O & _). change (m_open extc) with (m_open exal) in *. cbn [m_open exal] in *. injection O as <-. injection H as H.
  change (g1 ++ GFile (LOpen other) :: g2) with (g1 ++ [GFile (LOpen other)] ++ g2) in H.
  rewrite !filter_app, !app_length in H. cbn [filter List.length exal_is_open] in H. lia.
Qed.
Lemma exap_calls_app a b : extc_calls (a ++ b) = extc_calls a ++ extc_calls b.
Proof. apply flat_map_app. Qed.
Lemma exap_done fd a : filter (fun k => nc_fd k =? fd) (extc_calls a) = extc_calls (done_on fd a).
Proof.
  induction a as [|e a IH]; [reflexivity|]. change (e :: a) with ([e] ++ a). unfold done_on. rewrite exap_calls_app, !filter_app, IH, exap_calls_app. fold (done_on fd a). f_equal.
  destruct e as [l|c|f c]; cbn [extc_calls flat_map filter app acts_on].
  - destruct l; cbn [acts_on]; try reflexivity; destruct (_ =? _); reflexivity.
  - destruct (nc_fd c =? fd); reflexivity.
  - destruct (f =? fd); reflexivity.
Qed.
Example exap_undisturbed g0 fd : undisturbed extc g0 fd.
Proof.
  intros a b S. split; [|split; reflexivity]. intros c E. change (m_nvme extc) with extc_nvme. unfold extc_nvme.
  assert (X : forall x, extc_calls (g0 ++ x ++ [GNvme c]) = (extc_calls g0 ++ extc_calls x) ++ [c]) by (intros x; rewrite !exap_calls_app; now rewrite app_assoc).
  rewrite !X, !rev_unit. cbv zeta. rewrite !filter_app, E, !exap_done, S. reflexivity.
Qed.
(** In a history on which the drive is asked on, it behaves as its specification says: C180's [checks_psid]. *)
Lemma exap_received g k c rs packet : if_send 4 0x1004 packet c -> Forall (if_recv 4 0x1004) rs ->
  last (nvme_received (filter (fun k => nc_fd k =? 4) (extc_calls (g ++ map GNvme (k ++ c :: rs))))) [] = packet.
Proof.
  intros Sc Rr. rewrite exap_calls_app, filter_app. assert (Q : forall l, extc_calls (map GNvme l) = l) by (induction l as [|z l IH]; [reflexivity|cbn [map extc_calls flat_map app]; f_equal; exact IH]).
  rewrite Q, filter_app, app_assoc. cbn [filter]. rewrite (proj1 Sc). change (4 =? 4) with true. cbv iota.
  replace (filter (fun k0 => nc_fd k0 =? 4) rs) with rs.
  { destruct Sc as (H1 & H2 & H3 & a & E). unfold nvme_received. rewrite filter_app. cbn [filter]. rewrite E. cbn [plain_view up_opcode]. change (0x81 =? 0x81) with true. cbv iota.
    assert (Z : filter (fun c => up_opcode (read_passthru (nc_arg c)) =? 0x81) rs = []).
    { clear -Rr. induction Rr as [|r rs (_ & _ & _ & b & E) _ IH]; [reflexivity|]. cbn [filter]. rewrite E. cbn [plain_view up_opcode]. exact IH. }
    rewrite Z, map_app. cbn [map]. rewrite H3. apply last_last. }
  clear -Rr. induction Rr as [|r rs (F & _) _ IH]; [reflexivity|]. cbn [filter]. rewrite F. change (4 =? 4) with true. cbv iota. now rewrite <- IH.
Qed.
Lemma exap_replies g k packet p atoms : excf_answer packet = ex_packet p -> wf p -> p = stream atoms -> (List.length p <= 100)%nat ->
  be32_at off_sub_len (firstn 56 (ex_packet p)) = blen p -> be32_at off_outstanding (received (ex_packet p)) = 0 -> has_payload (received (ex_packet p)) ->
  Forall atom_ok atoms -> visible atoms = atoms -> nvme_replies (nvme_at extc g) 4 0x1004 packet k 0 atoms.
Proof.
  intros Ea W Es L B O Pay Ok_ V c rs Sc Rr Lr. pose proof (exap_received g k c rs packet Sc Rr) as RC. unfold nvme_at. change (m_nvme extc) with extc_nvme.
  destruct rs as [|r [|r2 rs]]; [| |cbn in Lr; lia].
  - split; [split; reflexivity|]. intros buf _. split; [cbn; lia|cbn; discriminate].
  - assert (X : extc_nvme (g ++ map GNvme (k ++ [c; r])) = {| na_errno := 0; na_ret := 0; na_result := 0; na_in := ex_packet p |}).
    { unfold extc_nvme. set (cs := extc_calls _) in *. assert (Y : exists t, rev cs = r :: t).
      { unfold cs. rewrite exap_calls_app, map_app. cbn [map]. rewrite exap_calls_app. cbn [extc_calls flat_map app]. rewrite !rev_app_distr. cbn [rev app]. eexists. reflexivity. }
      destruct Y as (t & Y). rewrite Y. destruct (Forall_inv Rr) as (Fr & _ & _ & ad & Er). cbv zeta. cbn [na_in]. rewrite Er, Fr. cbn [plain_view up_opcode up_cdw10].
      change (0x82 =? 0x06) with false. change (0x82 =? 0x82) with true. change (2 ^ 24 + 2 ^ 8 * 0x1004 =? 0x01000100) with false. cbn [negb]. rewrite RC, Ea. reflexivity. }
    rewrite X. cbn [na_in]. split; [split; reflexivity|]. intros buf D. split; [cbn; lia|]. intros _.
    assert (Eb : buf = received (ex_packet p)).
    { apply (delivered_unique _ _ _ _ D). assert (Lz : List.length (zeros 2048) = 2048%nat) by apply repeat_length.
      replace (received (ex_packet p)) with (fill (zeros 2048) (ex_packet p)); [apply fill_delivered|].
      unfold fill, received. rewrite Lz. f_equal. unfold zeros. apply excn_skip. }
    subst buf. split; [intros [Hw _]; exact (Hw O)|]. split; [exact Pay|]. exists atoms. split; [now apply excf_carries|]. auto.
Qed.
Lemma exap_checks g : checks_psid (nvme_at extc g) 4 0x1004 [] 0 excf_psid 105 0x12345678 1.
Proof.
  split; [|split].
  - exists (Short false false [105]), (Short false false [0x12; 0x34; 0x56; 0x78]), [].
    split; [split; [split; [wf_now|reflexivity]|right; exists [105]; auto]|]. split; [split; [split; [wf_now|reflexivity]|right; exists [0x12; 0x34; 0x56; 0x78]; auto]|].
    apply (exap_replies g [] _ ex_sync); [vm_compute; reflexivity|wf_now|reflexivity|apply Nat.leb_le; reflexivity|vm_compute; reflexivity|vm_compute; reflexivity|
      vm_compute; repeat split; discriminate| |reflexivity]. unfold sync_session, status_list. excn_atoms.
  - intros ch W L Ne. apply (exap_replies g [] _ (ex_plain 1)); [now apply excn_refuses|wf_now|reflexivity|apply Nat.leb_le; reflexivity|vm_compute; reflexivity|vm_compute; reflexivity|
      vm_compute; repeat split; discriminate| |reflexivity]. unfold no_result, status_list. excn_atoms.
  - intros c rs _ _. apply (exap_replies g _ _ (ex_plain 0)); [vm_compute; reflexivity|wf_now|reflexivity|apply Nat.leb_le; reflexivity|vm_compute; reflexivity|vm_compute; reflexivity|
      vm_compute; repeat split; discriminate| |reflexivity]. unfold no_result, status_list. excn_atoms.
Qed.
Lemma exap_bytes g : wf (na_in (m_nvme extc g)).
Proof.
  change (m_nvme extc) with extc_nvme. unfold extc_nvme. cbn [na_in]. destruct (rev (extc_calls g)) as [|c t]; [apply wf_nil|]. cbv zeta.
  destruct (_ =? _); [unfold exy_identify; rewrite !wf_app; repeat split; auto using wf_zeros; wf_lit|]. destruct (negb _); [apply wf_nil|].
  destruct (_ =? _); [apply exy_level0_wf|apply excf_answer_wf].
Qed.
Definition exap_handle (x : ghandle) : bool :=
  (gh_fd x =? 4) && match gh_dev x with Some d => match d_kind d with KNvme => true | _ => false end | None => false end
  && match p_dh (gh_dh x) with Some t => negb (is_ata t) && is_nvme t | None => false end.
Lemma exap_handle_ok : match nth_error (st_handles extc_opened) 1 with Some x => exap_handle x | None => false end = true.
Proof. vm_compute. reflexivity. Qed.
Example exap_com : is_any_ssc ex_dev = true /\ get_base_com_id ex_dev = Ok 0x1004.
Proof. vm_compute. split; reflexivity. Qed.

Lemma exap_general M ops1 path meanwhile pw isAdm opened i : opened = gstep M (grun M ops1) (GOpen path) -> i = List.length (st_handles (grun M ops1)) ->
  fresh_descriptors M -> List.length (st_handles opened) = S (List.length (st_handles (grun M ops1))) -> (forall t, calls_on i (meanwhile t) = []) ->
  match nth_error (st_handles opened) i with Some x => exap_handle x | None => false end = true ->
  undisturbed M (st_hist opened) 4 -> (forall g, m_addr M g < 2 ^ 64) -> (forall g, wf (na_in (m_nvme M g))) ->
  checks_psid (nvme_at M (st_hist opened)) 4 0x1004 [] 0 excf_psid 105 0x12345678 1 -> wf pw -> 1 <= blen pw <= 400 ->
  let results := snd (trun (program_env (replies_on M opened i) (GOn i) meanwhile slept exo_kdf (fun _ => 0) 500) ex_dev [] [] [TRevert pw true isAdm]) in
  (pw = excf_psid -> results = [Ok tt]) /\ (pw <> excf_psid -> results = [Err (ETcg 1)]).
Proof.
  intros -> -> HF L Mw HX U HA HB HC W Lp.
  destruct (C188_psid M ops1 path meanwhile ex_dev slept exo_kdf (fun _ => 0) 500%nat 0x1004 pw isAdm excf_psid 0%nat 105 0x12345678 1 HF L Mw) as (x & N & _ & R).
  rewrite N in HX. unfold exap_handle in HX. apply Bool.andb_true_iff in HX as [HX T]. apply Bool.andb_true_iff in HX as [F D]. apply N.eqb_eq in F. rewrite F in R.
  destruct (gh_dev x) as [d|] eqn:Dx; [|discriminate]. destruct (d_kind d) eqn:Kd; [|discriminate].
  assert (Ov : over_nvme (gh_dh x)).
  { unfold over_nvme. destruct (p_dh (gh_dh x)) as [[a n]|]; [|discriminate]. cbn in T. destruct a, n; try discriminate T. reflexivity. }
  destruct exap_com as [C1 C2]. apply (R d eq_refl U Kd Ov HA HB (fun _ => eq_refl) exo_kdf_ok ltac:(lia) (excn_fast 0 ltac:(lia)) C1 C2 ltac:(lia) W Lp HC). lia.
Qed.
Theorem ex_C188 pw : wf pw -> 1 <= blen pw <= 400 ->
  let results := snd (trun (program_env (replies_on extc extc_opened 1) (GOn 1) extc_meanwhile slept exo_kdf (fun _ => 0) 500) ex_dev [] [] [TRevert pw true false]) in
  (pw = excf_psid -> results = [Ok tt]) /\ (pw <> excf_psid -> results = [Err (ETcg 1)]).
Proof.
  apply (exap_general extc extc_before (str "/dev/nvme1n1")).
  - reflexivity.
  - exact extc_index.
  - exact exap_fresh.
  - exact extc_succeeds.
  - exact extc_apart.
  - exact exap_handle_ok.
  - apply exap_undisturbed.
  - intros g. reflexivity.
  - exact exap_bytes.
  - apply exap_checks.
Qed.
Print Assumptions ex_C188.
