(** C96-C98: drive handles over the Windows drivers. *)
From Verif Require Import Base M_Buffer M_Ata M_TcgDevice M_DriveHandle M_Cdb M_SgDriver M_NvmeLinux M_Strings M_WinPass M_WinNvme Spec_Sg Spec_WinPass
  Spec_WinNvme P_Discovery P_DriveHandle P_Sg P_NvmeLinux P_WinPass P_WinNvme.
From Verif Require Import Prop_Sg Prop_NvmeLinux Prop_WinPass Prop_WinNvme.

Lemma win_replay_app S A d h cs c : win_replay S A d h (cs ++ [c]) = replay_step S A d (win_replay S A d h cs) c.
Proof. unfold win_replay, replay_step, win_replay. now rewrite fold_left_app. Qed.
Lemma win_drv_io S A d h cs c : v_io (win_drv S A d h) (cs ++ [c]) =
  match snd (win_exec S A d (win_replay S A d h cs) c) with Ok x => x | _ => (None, []) end.
Proof. cbn [win_drv v_io]. now rewrite last_call_app. Qed.
Lemma step_sec S A d k rw dma p c b s : replay_step S A d k (CSec rw dma p c b s) = fst (win_exec S A d k (CSec rw dma p c b s)).
Proof. reflexivity. Qed.
Lemma step_task S A d k rw dma t b s : replay_step S A d k (CTask rw dma t b s) = fst (win_exec S A d k (CTask rw dma t b s)).
Proof. reflexivity. Qed.
Lemma step_admin S A d k c : replay_step S A d k (CAdmin c) = fst (win_exec S A d k (CAdmin c)).
Proof. reflexivity. Qed.

(** The drive handle sits on a Windows driver of this kind. *)
Definition over_win (d : wdh) (p : dh) : Prop := p_dh p = Some (win_dtype (wd_kind d)).
Definition addr_ok (A : waddr) : Prop := forall k, ad_data A k < 2 ^ 64 /\ ad_bounce A k < 2 ^ 64.

(** ---- C96: TCG commands through the miniport ---- *)
Definition security_cmd (rw : bool) (proto comId len : N) : admin_cmd :=
  {| c_opcode := if rw then 0x81 else 0x82; c_flags := 0; c_rsvd1 := 0; c_nsid := 0; c_cdw2 := 0; c_cdw3 := 0; c_metadata := 0; c_metadata_len := 0;
     c_data_len := len; c_cdw10 := 2 ^ 24 * proto + 2 ^ 8 * comId; c_cdw11 := len; c_cdw12 := 0; c_cdw13 := 0; c_cdw14 := 0; c_cdw15 := 0;
     c_timeout_ms := 0; c_result := 0; c_data_addr := 0; c_data := [] |}.
Lemma security_cdw10 proto comId : proto < 256 -> comId < 2 ^ 16 ->
  N.lor (N.shiftl (N.land proto 255) 24 mod 2 ^ 32) (N.shiftl (N.land comId 65535) 8 mod 2 ^ 32) = 2 ^ 24 * proto + 2 ^ 8 * comId.
Proof.
  intros Hpr Hc. change 255 with (N.ones 8). change 65535 with (N.ones 16). rewrite !N.land_ones.
  rewrite (N.mod_small proto) by exact Hpr. rewrite (N.mod_small comId) by exact Hc.
  rewrite !N.shiftl_mul_pow2. rewrite !N.mod_small.
  - rewrite N.lor_comm, <- N.shiftl_mul_pow2. rewrite <- (N.shiftl_mul_pow2 proto 24).
    rewrite lor_add_disjoint.
    + rewrite N.shiftl_mul_pow2. lia.
    + rewrite N.shiftl_mul_pow2. change (2 ^ 8) with 256. change (2 ^ 24) with 16777216. change (2 ^ 16) with 65536 in Hc. lia.
  - change (2 ^ 8) with 256. change (2 ^ 32) with 4294967296. change (2 ^ 16) with 65536 in Hc. lia.
  - change (2 ^ 24) with 16777216. change (2 ^ 32) with 4294967296. lia.
Qed.

Theorem C96_security_over_miniport : forall S A d h0 p h rw dma proto comId buf secs h' e out,
  let V := win_drv S A d h0 in
  let before := win_replay S A d h0 h in
  let after := win_replay S A d h0 h' in
  wd_kind d = KNvmeWin -> over_win d p -> proto < 256 -> comId < 2 ^ 16 -> blen buf < 2 ^ 32 ->
  security_command V p h rw dma proto comId buf secs = (h', (e, out)) ->
  (4096 < blen buf -> after = before /\ e = Some (EMsg "too long data") /\ out = buf)
  /\ (blen buf <= 4096 -> exists call sent, after = before ++ [WIo call]
      /\ wc_handle call = wd_scsi d /\ wc_code call = 0x4d008
      /\ miniport_carries (security_cmd rw proto comId (blen buf)) sent (wc_in call) /\ delivered (zeros (N.to_nat 4096)) buf sent
      /\ let a := s_io S after in
         (win_ok a -> e = None /\ exists reply, delivered sent (skipn 152 (wa_out a)) reply /\ out = firstn (List.length buf) reply)
         /\ (~ win_ok a -> e = Some (errno (wa_err a)) /\ out = buf)).
Proof.
  intros S A d h0 p h rw dma proto comId buf secs h' e out V before after Hk Hp Hpr Hc Hb H.
  unfold security_command in H. unfold over_win in Hp. rewrite Hp, Hk in H. cbv zeta in H. cbn [win_dtype is_ata is_nvme] in H.
  set (sec := CSec rw dma proto comId buf secs) in *.
  assert (X1 : win_exec S A d before sec = (before, Ok (Some not_supported, buf))) by (unfold win_exec, sec; rewrite Hk; reflexivity).
  assert (E1 : v_io V (h ++ [sec]) = (Some not_supported, buf)) by (unfold V; rewrite win_drv_io; fold before; rewrite X1; reflexivity).
  rewrite E1, fill_same in H. change 0xff with 255 in H. change 0xffff with 65535 in H. rewrite (security_cdw10 proto comId Hpr Hc) in H.
  rewrite (N.mod_small (blen buf)) in H by exact Hb. set (c := {| c_opcode := _ |}) in *.
  assert (R0 : win_replay S A d h0 (h ++ [sec]) = before) by (rewrite win_replay_app; fold before; unfold sec; rewrite step_sec; fold sec; rewrite X1; reflexivity).
  assert (Rx : win_exec S A d before (CAdmin c) = (let '(h1, (e, (cmd', _))) := miniport_admin S before (wd_scsi d) c [] in (h1, Ok (e, c_data cmd'))))
    by (unfold win_exec; rewrite Hk; reflexivity).
  unfold V in H. rewrite win_drv_io, R0, Rx in H. destruct (miniport_admin S before (wd_scsi d) c []) as [k1 [e1 [c1 x1]]] eqn:E. cbn [snd] in H.
  apply pair_equal_spec in H as [Hh H]. apply pair_equal_spec in H as [He Ho].
  assert (After : after = k1).
  { unfold after. rewrite <- Hh, win_replay_app, R0, step_admin, Rx. reflexivity. }
  assert (W : wf_cmd c).
  { unfold wf_cmd, c. cbn [c_opcode c_flags c_rsvd1 c_nsid c_cdw2 c_cdw3 c_metadata c_metadata_len c_data_len c_cdw10 c_cdw11 c_cdw12 c_cdw13 c_cdw14 c_cdw15 c_timeout_ms c_result c_data_addr].
    repeat split; try reflexivity; try exact Hb; [destruct rw; reflexivity|].
    change (2 ^ 24) with 16777216. change (2 ^ 8) with 256. change (2 ^ 32) with 4294967296. change (2 ^ 16) with 65536 in Hc. lia. }
  destruct (C91_miniport_admin _ _ _ _ _ _ _ _ _ W E) as [Long Short]. rewrite After. split; intros L.
  - destruct (Long L) as (-> & -> & -> & _). subst e out. split; [reflexivity|]. split; [reflexivity|]. cbn [c c_data]. apply fill_same.
  - destruct (Short L) as (call & sent & Hk1 & H1 & H2 & H3 & H4 & H5 & H6 & H7). exists call, sent. split; [exact Hk1|]. split; [exact H1|]. split; [exact H2|].
    split. { unfold miniport_carries in *. rewrite H5. unfold c, security_cmd. cbn [c_opcode c_nsid c_cdw10 c_cdw11 c_cdw12 c_cdw13 c_cdw14 c_cdw15]. destruct rw; reflexivity. }
    split; [exact H6|]. cbv zeta in H7 |- *. destruct H7 as [G F]. subst e out. split.
    + intros O. destruct (G O) as (-> & Sb & _ & _ & reply & D1 & D2). split; [reflexivity|]. exists reply. split; [exact D1|].
      unfold memory_of in D2. replace (c_data_addr c1) with 0 in D2 by (destruct Sb as (_ & _ & <-); reflexivity).
      cbn [c c_data_addr c_data c_data_len] in D2. change (0 =? 0) with true in D2. cbv iota in D2.
      assert (Lr : List.length reply = N.to_nat 4096).
      { destruct D1 as [-> _]. destruct H6 as [-> _]. unfold zeros. apply repeat_length. }
      assert (Lb : (List.length buf <= List.length reply)%nat) by (rewrite Lr; unfold blen in L; lia).
      assert (Lf : List.length (firstn (N.to_nat (blen buf)) reply) = List.length buf).
      { rewrite firstn_length. unfold blen. rewrite Nat2N.id. lia. }
      destruct D2 as (D2 & D3 & _). assert (Q : c_data c1 = firstn (N.to_nat (blen buf)) reply).
      { apply list_eq_nth_error. intros i. destruct (Nat.lt_ge_cases i (List.length buf)) as [I|I].
        - apply D3; [rewrite Lf; exact I|exact I].
        - rewrite (proj2 (nth_error_None _ _)) by lia. symmetry. apply nth_error_None. lia. }
      rewrite Q. unfold blen in *. rewrite Nat2N.id in *. rewrite fill_whole; [reflexivity|]. now rewrite Lf.
    + intros O. destruct (F O) as (-> & -> & _). split; [reflexivity|]. cbn [c c_data]. apply fill_same.
Qed.
Print Assumptions C96_security_over_miniport.

(** ---- C97: TCG commands through the SCSI, storage-query and ATA drivers ---- *)
Definition is_security_cdb (rw : bool) (proto comId : N) (buf cdb : bytes) : Prop :=
  security_decode cdb = Some {| sc_out := rw; sc_protocol := proto; sc_specific := comId; sc_inc512 := false; sc_length := blen buf |}.
(** TRUSTED SEND 5Eh/5Fh, TRUSTED RECEIVE 5Ch/5Dh *)
Definition trusted_opcode (rw dma : bool) : N := if rw then if dma then 0x5F else 0x5E else if dma then 0x5D else 0x5C.
Definition is_trusted_cdb (rw dma : bool) (proto comId : N) (buf cdb : bytes) : Prop :=
  exists s, sat_decode cdb = Some s /\ sat_command s = trusted_opcode rw dma /\ sat_features s = proto /\ sat_count s = (blen buf / 512) mod 256
  /\ sat_lba s = 2 ^ 8 * comId /\ sat_device s = 0.
Definition trusted_task (rw dma : bool) (proto comId : N) (buf : bytes) : tf :=
  {| t_dev := 0; t_command := trusted_opcode rw dma; t_error := 0; t_status := 0; t_lba48 := 0;
     t_lob := {| g_feat := proto; g_nsect := (blen buf / 512) mod 256; g_lbal := 0; g_lbam := comId mod 256; g_lbah := N.shiftr comId 8 mod 256 |};
     t_hob := regs0 |}.
Lemma trusted_wf rw dma proto comId buf : proto < 256 -> wf_tf (trusted_task rw dma proto comId buf).
Proof.
  intros Hp. unfold wf_tf, trusted_task. cbn. repeat split; try reflexivity; try exact Hp; try (destruct rw, dma; reflexivity);
    try (apply N.mod_lt; discriminate).
Qed.
Lemma fallback_task (rw dma : bool) (proto comId : N) (buf : bytes) :
  {| t_dev := 0; t_command := if rw then ternary dma ATA_OP_TRUSTED_SEND_DMA ATA_OP_TRUSTED_SEND else ternary dma ATA_OP_TRUSTED_RECV_DMA ATA_OP_TRUSTED_RECV;
     t_error := 0; t_status := 0; t_lba48 := 0;
     t_lob := {| g_feat := proto; g_nsect := (blen buf / 512) mod 256; g_lbal := 0; g_lbam := comId mod 256; g_lbah := N.shiftr comId 8 mod 256 |};
     t_hob := regs0 |} = trusted_task rw dma proto comId buf.
Proof. unfold trusted_task. destruct rw, dma; reflexivity. Qed.
Lemma trusted_low comId : comId < 2 ^ 16 -> comId mod 256 * 2 ^ 8 + N.shiftr comId 8 mod 256 * 2 ^ 16 = 2 ^ 8 * comId.
Proof.
  intros H. rewrite N.shiftr_div_pow2. change (2 ^ 8) with 256. change (2 ^ 16) with 65536 in *.
  rewrite (N.mod_small (comId / 256)) by (apply N.div_lt_upper_bound; lia).
  pose proof (N.div_mod comId 256 ltac:(lia)) as E. set (q := comId / 256) in *. set (m := comId mod 256) in *. lia.
Qed.

Lemma exchange_len S h hd rw cdb buf addr baddr secs h' e got : scsi_exchange S h hd rw cdb buf addr baddr secs h' e got -> List.length got = List.length buf.
Proof.
  intros (c1 & rest & p1 & md & _ & _ & _ & _ & _ & _ & _ & _ & _ & Q). cbv zeta in Q. destruct Q as (_ & Q1 & Q2 & Q3).
  assert (Lz : forall b : bool, List.length (if b then buf else zeros (List.length buf)) = List.length buf) by (intros []; [reflexivity|apply len_zeros]).
  assert (Lz' : forall b : bool, List.length (if b then zeros (List.length buf) else buf) = List.length buf) by (intros []; [apply len_zeros|reflexivity]).
  assert (Lmd : List.length md = List.length buf).
  { destruct (negb rw && _); [destruct Q1 as [-> _]; reflexivity|]. rewrite Q1. apply Lz'. }
  destruct (N.eq_dec (wa_err (s_io S (h ++ [WIo c1]))) 0) as [O|O].
  - destruct (Q2 O) as (_ & _ & Q). destruct rw; [rewrite Q; apply len_zeros|]. destruct Q as [-> _]. apply Lz.
  - destruct (Q3 O) as (c2 & _ & _ & _ & _ & _ & _ & _ & _ & G1 & G2).
    destruct (N.eq_dec (wa_err (s_io S h')) 0) as [O2|O2].
    + destruct (G1 O2) as (_ & Q). destruct rw; [rewrite Q; apply len_zeros|]. destruct Q as [-> _]. exact Lmd.
    + destruct (G2 O2) as (_ & ->). exact Lmd.
Qed.
Lemma security_scsi_kind S A d before rw dma proto comId buf secs :
  wd_kind d = KScsi \/ wd_kind d = KWinNvme ->
  win_exec S A d before (CSec rw dma proto comId buf secs)
  = win_security S before (wd_handle d) rw dma proto comId buf (ad_data A before) (ad_bounce A before) (Z.of_N secs).
Proof. unfold win_exec. intros [-> | ->]; reflexivity. Qed.

Theorem C97_security_over_scsi : forall S A d h0 p h rw dma proto comId buf secs h' e out,
  let V := win_drv S A d h0 in
  let before := win_replay S A d h0 h in
  let after := win_replay S A d h0 h' in
  let hd := wd_handle d in
  wd_kind d = KScsi \/ wd_kind d = KWinNvme -> over_win d p -> addr_ok A -> proto < 256 -> comId < 2 ^ 16 -> blen buf < 2 ^ 32 -> buf <> [] ->
  security_command V p h rw dma proto comId buf secs = (h', (e, out)) ->
  (* a SECURITY PROTOCOL packet comes first; if it succeeds its result is the result *)
  exists k1 e1 mid cdb1, is_security_cdb rw proto comId buf cdb1
  /\ scsi_exchange S before hd rw cdb1 buf (ad_data A before) (ad_bounce A before) (Z.of_N secs) k1 e1 mid
  /\ (e1 = None -> after = k1 /\ e = None /\ out = mid)
  (* over NVMe nothing is tried after a failure, and the caller is told "not supported" instead of the error *)
  /\ (e1 <> None -> wd_kind d = KWinNvme -> after = k1 /\ e = Some (EMsg "not supported") /\ out = mid)
  (* over SCSI an ATA TRUSTED command follows, on whatever the first attempt left in the buffer *)
  /\ (e1 <> None -> wd_kind d = KScsi -> exists cdb2, is_trusted_cdb rw dma proto comId buf cdb2
        /\ scsi_exchange S k1 hd rw cdb2 mid (ad_data A k1) (ad_bounce A k1) (Z.of_N secs) after e out).
Proof.
  intros S A d h0 p h rw dma proto comId buf secs h' e out V before after hd Hk Hp HA Hpr Hc Hb Hne H.
  unfold security_command in H. unfold over_win in Hp. rewrite Hp in H. cbv zeta in H.
  set (sec := CSec rw dma proto comId buf secs) in *.
  pose proof (security_scsi_kind S A d before rw dma proto comId buf secs Hk) as X. fold sec in X.
  destruct (win_security S before (wd_handle d) rw dma proto comId buf (ad_data A before) (ad_bounce A before) (Z.of_N secs)) as [k1 r1] eqn:E1.
  destruct (HA before) as [Ha1 Ha2].
  destruct (C89_win_security _ _ _ _ _ _ _ _ _ _ _ _ _ Hc Hb Ha1 Ha2 E1) as [_ Y]. destruct (Y Hne) as (e1 & mid & cdb1 & -> & Ex & Cd). clear Y.
  exists k1, e1, mid, cdb1. split; [exact Cd|]. split; [exact Ex|].
  assert (V1 : v_io V (h ++ [sec]) = (e1, mid)) by (unfold V; rewrite win_drv_io; fold before; rewrite X; reflexivity).
  assert (R1 : win_replay S A d h0 (h ++ [sec]) = k1) by (rewrite win_replay_app; fold before; unfold sec; rewrite step_sec; fold sec; rewrite X; reflexivity).
  assert (Lm : List.length mid = List.length buf) by exact (exchange_len _ _ _ _ _ _ _ _ _ _ _ _ Ex).
  rewrite V1, (fill_whole buf mid) in H by (symmetry; exact Lm).
  destruct e1 as [x|].
  2:{ apply pair_equal_spec in H as [Hh H]. apply pair_equal_spec in H as [<- <-]. unfold after. rewrite <- Hh, R1.
      split; [auto|]. split; intros Q; contradiction Q; reflexivity. }
  split; [discriminate|]. split; intros _ K.
  - rewrite K in H. cbn [win_dtype is_ata is_nvme] in H. match type of H with context [CAdmin ?q] => set (c := q) in * end.
    assert (Z : forall k, win_exec S A d k (CAdmin c) = (k, Ok (Some not_supported, c_data c))) by (intros k; unfold win_exec; rewrite K; reflexivity).
    assert (V2 : v_io V ((h ++ [sec]) ++ [CAdmin c]) = (Some not_supported, mid)) by (unfold V; rewrite win_drv_io, Z; reflexivity).
    rewrite V2, fill_same in H. apply pair_equal_spec in H as [Hh H]. apply pair_equal_spec in H as [<- <-].
    unfold after. rewrite <- Hh, win_replay_app, R1, step_admin, Z. auto.
  - rewrite K in H. cbn [win_dtype is_ata is_nvme] in H. rewrite fallback_task in H. set (t := trusted_task rw dma proto comId buf) in *.
    assert (Z : win_exec S A d k1 (CTask rw dma t mid secs) = win_task_file S k1 hd rw dma t mid (ad_data A k1) (ad_bounce A k1) (Z.of_N secs))
      by (unfold win_exec; rewrite K; reflexivity).
    destruct (win_task_file S k1 hd rw dma t mid (ad_data A k1) (ad_bounce A k1) (Z.of_N secs)) as [k2 r2] eqn:E2.
    destruct (HA k1) as [Hb1 Hb2].
    destruct (C88_scsi_task_file _ _ _ _ _ _ _ _ _ _ _ _ (trusted_wf rw dma proto comId buf Hpr) Hb1 Hb2 E2) as [_ Y].
    assert (Nm : mid <> []) by (intros ->; destruct buf; [congruence|discriminate Lm]).
    destruct (Y Nm) as (e2 & got & cdb2 & -> & Ex2 & Sd & _).
    assert (V2 : v_io V ((h ++ [sec]) ++ [CTask rw dma t mid secs]) = (e2, got)) by (unfold V; rewrite win_drv_io, R1, Z; reflexivity).
    rewrite V2 in H. apply pair_equal_spec in H as [Hh H]. apply pair_equal_spec in H as [<- <-].
    exists cdb2. split.
    { eexists. split; [exact Sd|]. cbn [sat_command sat_features sat_count sat_lba sat_device].
      unfold tf_features, tf_count, tf_lba, tf_is_lba48, low_lba, t, trusted_task. cbn [t_lba48 t_lob t_command t_dev g_feat g_nsect g_lbal g_lbam g_lbah].
      change (negb (0 =? 0)) with false. cbv iota. repeat split. pose proof (trusted_low comId Hc) as T. lia. }
    assert (Af : after = k2) by (unfold after; rewrite <- Hh, win_replay_app, R1, step_task, Z; reflexivity). rewrite Af.
    assert (Lg : List.length got = List.length mid) by exact (exchange_len _ _ _ _ _ _ _ _ _ _ _ _ Ex2).
    rewrite (fill_whole mid got) by (symmetry; exact Lg). exact Ex2.
Qed.
Print Assumptions C97_security_over_scsi.

(** Over the ATA driver: one TRUSTED command, never by DMA although the opcode may be the DMA one. *)
Theorem C97_security_over_ata : forall S A d h0 p h rw dma proto comId buf secs h' e out,
  let V := win_drv S A d h0 in
  let before := win_replay S A d h0 h in
  let after := win_replay S A d h0 h' in
  wd_kind d = KAta -> over_win d p -> addr_ok A -> proto < 256 -> comId < 2 ^ 16 -> buf <> [] ->
  security_command V p h rw dma proto comId buf secs = (h', (e, out)) ->
  exists c1 rest t, after = before ++ WIo c1 :: rest /\ List.length out = List.length buf
  /\ t_command t = trusted_opcode rw dma /\ tf_features t = proto /\ tf_count t = (blen buf / 512) mod 256 /\ tf_lba t = 2 ^ 8 * comId
  /\ t_dev t = 0 /\ tf_is_lba48 t = false
  /\ wc_handle c1 = wd_handle d /\ wc_code c1 = 0x4d030 /\ ata_request rw t (blen buf) (Z.of_N secs) (wc_in c1)
  /\ (forall b, ata_request rw t (blen buf) (Z.of_N secs) b -> N.testbit (ap_flags (apt_decode b)) flag_dma = false)
  (* success means that the direct request went through: the fallback can never succeed *)
  /\ (e = None -> rest = [] /\ win_ok (s_io S after)).
Proof.
  intros S A d h0 p h rw dma proto comId buf secs h' e out V before after Hk Hp HA Hpr Hc Hne H.
  unfold security_command in H. unfold over_win in Hp. rewrite Hp, Hk in H. cbv zeta in H. cbn [win_dtype is_ata is_nvme] in H.
  set (sec := CSec rw dma proto comId buf secs) in *.
  assert (X1 : win_exec S A d before sec = (before, Ok (Some not_supported, buf))) by (unfold win_exec, sec; rewrite Hk; reflexivity).
  assert (E1 : v_io V (h ++ [sec]) = (Some not_supported, buf)) by (unfold V; rewrite win_drv_io; fold before; rewrite X1; reflexivity).
  assert (R1 : win_replay S A d h0 (h ++ [sec]) = before) by (rewrite win_replay_app; fold before; unfold sec; rewrite step_sec; fold sec; rewrite X1; reflexivity).
  rewrite E1, fill_same, fallback_task in H. set (t := trusted_task rw dma proto comId buf) in *.
  assert (Z : win_exec S A d before (CTask rw dma t buf secs) = win_ata S before (wd_handle d) rw dma t buf (ad_data A before) (ad_bounce A before) (Z.of_N secs))
    by (unfold win_exec; rewrite Hk; reflexivity).
  destruct (win_ata S before (wd_handle d) rw dma t buf (ad_data A before) (ad_bounce A before) (Z.of_N secs)) as [k2 r2] eqn:E2.
  pose proof (trusted_wf rw dma proto comId buf Hpr) as Wt. fold t in Wt. destruct (HA before) as [Ha1 Ha2].
  destruct (C85_ata_panics _ _ _ _ _ _ _ _ _ _ _ _ Wt E2) as [_ Y]. destruct (Y Hne) as (e2 & got & -> & Lg).
  destruct (C85_ata_requests _ _ _ _ _ _ _ _ _ _ _ _ Wt Ha1 Ha2 Hne E2) as (c1 & rest & Hk2 & H1 & H2 & _ & _ & H3 & _).
  assert (V2 : v_io V ((h ++ [sec]) ++ [CTask rw dma t buf secs]) = (e2, got)) by (unfold V; rewrite win_drv_io, R1, Z; reflexivity).
  rewrite V2, (fill_whole buf got) in H by (symmetry; exact Lg). apply pair_equal_spec in H as [Hh H]. apply pair_equal_spec in H as [<- <-].
  assert (Af : after = k2) by (unfold after; rewrite <- Hh, win_replay_app, R1, step_task, Z; reflexivity).
  exists c1, rest, t. rewrite Af. split; [exact Hk2|]. split; [exact Lg|]. split; [reflexivity|].
  unfold tf_features, tf_count, tf_lba, tf_is_lba48, low_lba, t, trusted_task. cbn [t_lba48 t_lob t_command t_dev g_feat g_nsect g_lbal g_lbam g_lbah].
  change (negb (0 =? 0)) with false. cbv iota. split; [reflexivity|]. split; [reflexivity|].
  split; [pose proof (trusted_low comId Hc) as T; lia|]. split; [reflexivity|]. split; [reflexivity|]. split; [exact H1|]. split; [exact H2|]. split; [exact H3|].
  split.
  - intros b (_ & F & _). destruct (N.testbit (ap_flags (apt_decode b)) flag_dma) eqn:T; [|reflexivity]. apply F in T.
    unfold flag_dma, flag_data_in, flag_data_out, flag_48bit in T. intuition discriminate.
  - intros ->. destruct (C87_fallback_useless S before (wd_handle d) rw dma t buf (ad_data A before) (ad_bounce A before) (Z.of_N secs) k2 got Wt) as (c & Ec & O).
    + right. unfold t, trusted_task. cbn [t_command]. destruct rw, dma; reflexivity.
    + exact E2.
    + split; [|exact O]. rewrite Ec in Hk2. apply app_inv_head in Hk2. now inversion Hk2.
Qed.
Print Assumptions C97_security_over_ata.

(** ---- C98: nothing but zeros is ever sent ---- *)
(** The data Windows is given for the device: the memory behind a direct request (4d014h, 4d030h), what follows the 96- or 48-byte
    header of a buffered one. *)
Definition payload (c : wcall) : bytes :=
  if (wc_code c =? 0x4d014) || (wc_code c =? 0x4d030) then wc_mem c
  else skipn (if wc_code c =? 0x4d004 then 96 else 48) (wc_in c).
Lemma exchange_zeros S h hd cdb buf addr baddr secs h' e got : scsi_exchange S h hd true cdb buf addr baddr secs h' e got ->
  got = zeros (List.length buf) /\ exists cs, h' = h ++ map WIo cs /\ Forall (fun c => payload c = zeros (List.length buf)) cs.
Proof.
  intros (c1 & rest & p1 & md & E & _ & Cd & _ & _ & _ & _ & Mm & _ & Q). cbv zeta in Q. destruct Q as (_ & Q1 & Q2 & Q3). cbn [negb andb orb] in Q1, Mm.
  assert (P1 : payload c1 = zeros (List.length buf)) by (unfold payload; rewrite Cd; exact Mm).
  destruct (N.eq_dec (wa_err (s_io S (h ++ [WIo c1]))) 0) as [O|O].
  - destruct (Q2 O) as (-> & _ & ->). split; [reflexivity|]. exists [c1]. split; [exact E|]. constructor; [exact P1|constructor].
  - destruct (Q3 O) as (c2 & -> & _ & Cd2 & _ & _ & _ & Sk & _ & G1 & G2). split.
    + destruct (N.eq_dec (wa_err (s_io S h')) 0) as [O2|O2]; [now destruct (G1 O2)|]. destruct (G2 O2) as (_ & ->). exact Q1.
    + exists [c1; c2]. split; [exact E|]. constructor; [exact P1|]. constructor; [|constructor]. unfold payload. rewrite Cd2. change (0x4d004 =? 0x4d004) with true.
      cbn [orb]. change ((0x4d004 =? 0x4d014) || (0x4d004 =? 0x4d030)) with false. cbv iota. rewrite Sk. exact Q1.
Qed.

Theorem C98_sends_zeros_refuted : forall S A d h0 p h dma proto comId buf secs h' e out,
  let V := win_drv S A d h0 in
  let before := win_replay S A d h0 h in
  let after := win_replay S A d h0 h' in
  wd_kind d <> KNvmeWin -> over_win d p -> addr_ok A -> proto < 256 -> comId < 2 ^ 16 -> blen buf < 2 ^ 32 -> buf <> [] ->
  security_command V p h true dma proto comId buf secs = (h', (e, out)) ->
  (exists cs, after = before ++ map WIo cs /\ cs <> [] /\ Forall (fun c => payload c = zeros (List.length buf)) cs)
  /\ out = zeros (List.length buf).                (* and the caller's own buffer is erased *)
Proof.
  intros S A d h0 p h dma proto comId buf secs h' e out V before after Hk Hp HA Hpr Hc Hb Hne H.
  assert (Head : forall (c : wcall) rest (cs : list wcall) x, x ++ WIo c :: rest = x ++ map WIo cs -> cs <> []).
  { intros c rest cs x Q. apply app_inv_head in Q. destruct cs; [discriminate Q|congruence]. }
  destruct (wd_kind d) eqn:K; [congruence|..].
  1,2: destruct (C97_security_over_scsi S A d h0 p h true dma proto comId buf secs h' e out) as (k1 & e1 & mid & cdb1 & _ & Ex & N1 & N2 & N3); auto;
       fold before in Ex; fold after in N1, N2, N3; destruct (exchange_zeros _ _ _ _ _ _ _ _ _ _ _ Ex) as (Zm & cs1 & Ek & F1);
       assert (Ne : cs1 <> []) by (destruct Ex as (c1 & rest & p1 & md & Q & _); rewrite Ek in Q; symmetry in Q; eapply Head; exact Q);
       destruct e1 as [x|]; [|destruct (N1 eq_refl) as (-> & _ & ->); split; [exists cs1; auto|exact Zm]].
  - destruct (N2 ltac:(discriminate) K) as (-> & _ & ->). split; [exists cs1; auto|exact Zm].
  - destruct (N3 ltac:(discriminate) K) as (cdb2 & _ & Ex2). destruct (exchange_zeros _ _ _ _ _ _ _ _ _ _ _ Ex2) as (Zo & cs2 & Ea & F2).
    assert (L : List.length mid = List.length buf) by (rewrite Zm; apply len_zeros). rewrite L in Zo, F2. split; [|exact Zo].
    exists (cs1 ++ cs2). rewrite map_app, app_assoc, <- Ek. split; [exact Ea|]. split; [|now apply Forall_app]. intros Q. apply app_eq_nil in Q as [Q _]. contradiction.
  - unfold security_command in H. unfold over_win in Hp. rewrite Hp, K in H. cbv zeta in H. cbn [win_dtype is_ata is_nvme] in H.
    set (sec := CSec true dma proto comId buf secs) in *.
    assert (X1 : win_exec S A d before sec = (before, Ok (Some not_supported, buf))) by (unfold win_exec, sec; rewrite K; reflexivity).
    assert (E1 : v_io V (h ++ [sec]) = (Some not_supported, buf)) by (unfold V; rewrite win_drv_io; fold before; rewrite X1; reflexivity).
    assert (R1 : win_replay S A d h0 (h ++ [sec]) = before) by (rewrite win_replay_app; fold before; unfold sec; rewrite step_sec; fold sec; rewrite X1; reflexivity).
    rewrite E1, fill_same in H. rewrite (fallback_task true dma proto comId buf) in H. set (t := trusted_task true dma proto comId buf) in *.
    assert (Z : win_exec S A d before (CTask true dma t buf secs) = win_ata S before (wd_handle d) true dma t buf (ad_data A before) (ad_bounce A before) (Z.of_N secs))
      by (unfold win_exec; rewrite K; reflexivity).
    destruct (win_ata S before (wd_handle d) true dma t buf (ad_data A before) (ad_bounce A before) (Z.of_N secs)) as [k2 r2] eqn:E2.
    pose proof (trusted_wf true dma proto comId buf Hpr) as Wt. fold t in Wt. destruct (HA before) as [Ha1 Ha2].
    destruct (C86_ata_writes_send_zeros _ _ _ _ _ _ _ _ _ _ _ Wt Hne E2) as [(e2 & ->) (c1 & rest & Hk2 & M1 & M2)].
    destruct (C85_ata_requests _ _ _ _ _ _ _ _ _ _ _ _ Wt Ha1 Ha2 Hne E2) as (c1' & rest' & Hk2' & _ & Cd1 & _ & _ & _ & _ & _ & _ & _ & Y). cbv zeta in Y.
    assert (Q : WIo c1 :: rest = WIo c1' :: rest') by (rewrite Hk2 in Hk2'; now apply app_inv_head in Hk2'). inversion Q; subst c1' rest'. clear Q.
    assert (V2 : v_io V ((h ++ [sec]) ++ [CTask true dma t buf secs]) = (e2, zeros (List.length buf))) by (unfold V; rewrite win_drv_io, R1, Z; reflexivity).
    rewrite V2, (fill_whole buf) in H by (symmetry; apply len_zeros). apply pair_equal_spec in H as [Hh H]. apply pair_equal_spec in H as [<- <-].
    assert (Af : after = k2) by (unfold after; rewrite <- Hh, win_replay_app, R1, step_task, Z; reflexivity). rewrite Af. split; [|reflexivity].
    assert (P1 : payload c1 = zeros (List.length buf)) by (unfold payload; rewrite Cd1; exact M1).
    destruct (N.eq_dec (wa_err (s_io S (before ++ [WIo c1]))) 0) as [O|O].
    + destruct Y as [Y _]. rewrite (Y O) in Hk2. exists [c1]. split; [exact Hk2|]. split; [discriminate|]. auto.
    + destruct Y as [_ Y]. destruct (Y O) as (c2 & p1 & -> & _ & Cd2 & _). exists [c1; c2]. split; [exact Hk2|]. split; [discriminate|].
      constructor; [exact P1|]. constructor; [|constructor]. destruct (M2 (WIo c2) (or_introl eq_refl)) as (c & Ec & Sk & _). injection Ec as <-.
      unfold payload. rewrite Cd2. exact Sk.
Qed.
Print Assumptions C98_sends_zeros_refuted.

(** ---- C99: the fused-operation bits of a command ---- *)
Theorem C99_fuse : forall b v, b < 256 -> v < 256 ->
  get_fuse (set_fuse b v) = v mod 4 /\ set_fuse b v / 4 = b / 4 /\ set_fuse b v < 256 /\ get_fuse b = b mod 4.
Proof.
  intros b v Hb Hv.
  assert (E : (set_fuse b v =? 4 * (b / 4) + v mod 4) && (set_fuse b v <? 256) && (get_fuse (set_fuse b v) =? v mod 4) && (set_fuse b v / 4 =? b / 4) = true).
  { revert b v Hb Hv. apply byte_sweep2. vm_compute. reflexivity. }
  rewrite !andb_true_iff, !N.eqb_eq, N.ltb_lt in E. destruct E as [[[_ E2] E3] E4]. repeat split; try assumption.
  unfold get_fuse. change 3 with (N.ones 2). apply N.land_ones.
Qed.
Print Assumptions C99_fuse.
