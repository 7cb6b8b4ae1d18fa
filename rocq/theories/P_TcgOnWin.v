(** Lemmas for C119-C120: the TCG client over the Windows drivers. *)
From Verif Require Import Base M_Buffer M_Ata M_TcgToken M_TcgCommand M_TcgDevice M_TcgSession M_DriveHandle M_Cdb M_SgDriver M_NvmeLinux M_Strings M_TcgOnDrive M_WinPass M_WinNvme
  Spec_Tcg Spec_TcgCommand Spec_TcgClient Spec_TcgSession P_TcgDevice P_TcgSession Spec_NvmeLinux Spec_Sg Spec_WinPass Spec_WinNvme P_Discovery P_DriveHandle P_Sg P_NvmeLinux
  P_WinPass P_WinNvme Spec_TcgOnDrive P_TcgOnDrive.
From Verif Require Import Prop_Sg Prop_NvmeLinux Prop_WinPass Prop_WinNvme Prop_WinDrive.

(** ---- two histories that differ at most in the bytes of their sends ---- *)
Definition block (b : bytes) : Prop := List.length b = 512%nat /\ wf b.
Definition similar_ev (com : N) (e e' : ev) : Prop :=
  match e, e' with
  | EvNow, EvNow => True
  | EvSleep a, EvSleep b => a = b
  | EvSec true dma pr c b s, EvSec true dma' pr' c' b' s' => dma = dma' /\ pr = 1 /\ pr' = 1 /\ c = com /\ c' = com /\ s = s' /\ block b /\ block b'
  | EvSec false dma pr c b s, EvSec false dma' pr' c' b' s' => dma = dma' /\ pr = 1 /\ pr' = 1 /\ c = com /\ c' = com /\ s = s' /\ b = zeros 2048 /\ b' = zeros 2048
  | _, _ => False
  end.
Definition similar (com : N) : hist -> hist -> Prop := Forall2 (similar_ev com).
(** the world answers both alike *)
Definition blind (com : N) (E : env) : Prop := forall t t', similar com t t' -> e_sec E t = e_sec E t' /\ e_clock E t = e_clock E t'.

Lemma similar_typed com t t' : com < 2 ^ 16 -> similar com t t' -> Forall typed (commands t) /\ Forall (fun x => x_data x <> []) (commands t).
Proof.
  intros Hc F. induction F as [|e e' t t' H _ IH]; [split; constructor|]. destruct IH as [I1 I2].
  destruct e as [| |[] dma pr c b s], e' as [| |[] dma' pr' c' b' s']; cbn [similar_ev] in H; try contradiction; cbn [commands]; auto.
  - destruct H as (_ & -> & _ & -> & _ & _ & (L & W) & _). split; constructor; auto; unfold typed; cbn [x_protocol x_comid x_data].
    + repeat split; auto. unfold blen. rewrite L. reflexivity.
    + intros ->. discriminate L.
  - destruct H as (_ & -> & _ & -> & _ & _ & -> & _). split; constructor; auto; unfold typed; cbn [x_protocol x_comid x_data].
    + repeat split; auto. apply wf_zeros.
    + discriminate.
Qed.
Lemma similar_sym com t t' : similar com t t' -> similar com t' t.
Proof.
  intros F. induction F as [|e e' t t' H _ IH]; constructor; [|exact IH].
  destruct e as [| |[] dma pr c b s], e' as [| |[] dma' pr' c' b' s']; cbn [similar_ev] in H |- *; try contradiction; try intuition congruence.
Qed.
Lemma similar_app com a a' b b' : similar com a a' -> similar com b b' -> similar com (a ++ b) (a' ++ b').
Proof. apply Forall2_app. Qed.

(** ---- the client ---- *)
Lemma loop_blind com E d begin : blind com E -> get_base_com_id d = Ok com -> forall fuel first resp h h', similar com h h' ->
  List.length (r_buf resp) = 2048%nat ->
  let x := exec_loop E d 1 begin fuel first resp h in
  let y := exec_loop E d 1 begin fuel first resp h' in
  snd x = snd y /\ similar com (fst x) (fst y).
Proof.
  intros HB Hc. induction fuel as [|f IH]; intros first resp h h' S Lr; cbn [exec_loop]; cbv zeta.
  { destruct (first || keep_polling resp); [cbn [fst snd]; auto|]. destruct (commit (e_heap E) resp) as [r [ | | |]]; cbn [fst snd]; auto. }
  destruct (first || keep_polling resp); [|destruct (commit (e_heap E) resp) as [r [ | | |]]; cbn [fst snd]; auto].
  rewrite Hc.
  assert (S1 : similar com (h ++ [EvNow]) (h' ++ [EvNow])) by (apply similar_app; [exact S|repeat constructor]).
  assert (Z : r_buf (resp_reset resp) = zeros 2048) by (unfold resp_reset; cbn [r_buf]; rewrite Lr; reflexivity).
  assert (S3 : similar com (((h ++ [EvNow]) ++ [EvSleep poll_sleep_ns]) ++ [EvSec false false 1 com (r_buf (resp_reset resp)) 5])
                           (((h' ++ [EvNow]) ++ [EvSleep poll_sleep_ns]) ++ [EvSec false false 1 com (r_buf (resp_reset resp)) 5])).
  { apply similar_app; [apply similar_app; [exact S1|repeat constructor]|]. repeat constructor; exact Z. }
  destruct (HB _ _ S1) as [_ C1]. destruct (HB _ _ S3) as [C3 _]. rewrite <- C1, <- C3.
  destruct (e_sec E _) as [e new]. destruct e as [er|]; [cbn [fst snd]; auto|]. destruct (timeout_ns <? _); [cbn [fst snd]; auto|]. apply IH; [exact S3|].
  cbn [r_buf]. rewrite fill_length, Z. apply repeat_length.
Qed.
Lemma exec_blind com E d c c' h h' : blind com E -> get_base_com_id d = Ok com -> is_any_ssc d = true -> similar com h h' ->
  block (cmd_slice c) -> block (cmd_slice c') ->
  let x := exec E d c 1 h in
  let y := exec E d c' 1 h' in
  snd x = snd y /\ similar com (fst x) (fst y).
Proof.
  intros HB Hc Hs S B B'. unfold exec. rewrite Hs, Hc. cbn [negb]. cbv zeta.
  assert (S1 : similar com (h ++ [EvNow]) (h' ++ [EvNow])) by (apply similar_app; [exact S|repeat constructor]).
  assert (S2 : similar com ((h ++ [EvNow]) ++ [EvSec true false 1 com (cmd_slice c) 5]) ((h' ++ [EvNow]) ++ [EvSec true false 1 com (cmd_slice c') 5])).
  { apply similar_app; [exact S1|]. constructor; [|constructor]. cbn [similar_ev]. auto 10. }
  destruct (HB _ _ S1) as [_ C1]. destruct (HB _ _ S2) as [C2 _]. rewrite <- C1, <- C2.
  destruct (fst (e_sec E _)); [cbn [fst snd]; auto|]. apply loop_blind; auto.
Qed.
Lemma send_blind com E d s s' c c' h h' : blind com E -> get_base_com_id d = Ok com -> is_any_ssc d = true -> similar com h h' ->
  block (cmd_slice (stamp s com c)) -> block (cmd_slice (stamp s' com c')) ->
  let x := send_command E d s c h in
  let y := send_command E d s' c' h' in
  snd x = snd y /\ similar com (fst x) (fst y).
Proof.
  intros HB Hc Hs S B B'. cbv zeta. rewrite !(send_unfold E d _ _ com _ Hc).
  destruct (exec_blind com E d _ _ h h' HB Hc Hs S B B') as [X Y].
  destruct (exec E d (stamp s com c) 1 h) as [h1 r1], (exec E d (stamp s' com c') 1 h') as [h2 r2]. cbn [fst snd] in X, Y. subst r2.
  destruct r1 as [[[resp|] [e|]]|e| |]; cbn [fst snd]; auto.
Qed.

(** ---- RevertTPer and the drivers below ---- *)
Lemma revert_blind com E d pw pw' ps ps' adm adm' : env_ok E -> blind com E -> get_base_com_id d = Ok com -> com < 2 ^ 16 -> is_any_ssc d = true -> wf pw -> wf pw' ->
  forall h h', similar com h h' ->
  let x := revert_tper E d pw ps adm h in
  let y := revert_tper E d pw' ps' adm' h' in
  snd x = snd y /\ similar com (fst x) (fst y).
Proof.
  intros HE HB Hc Hc16 Hs W W' h h' S. cbv zeta.
  assert (Hd : forall q a b g, revert_tper E d q a b g = opal_revert_tper E d q a g) by (intros; unfold revert_tper; destruct (opal_kind d Hs) as [-> | ->]; reflexivity).
  rewrite !Hd. unfold opal_revert_tper.
  set (s0 := if ps then _ else _). set (s0' := if ps' then _ else _). set (u := if ps then _ else _). set (u' := if ps' then _ else _).
  assert (N0 : numbers s0 0 0) by (unfold s0; destruct ps; split; reflexivity).
  assert (N0' : numbers s0' 0 0) by (unfold s0'; destruct ps'; split; reflexivity).
  assert (U : wf u /\ List.length u = 8%nat) by (unfold u; destruct ps; (split; [wf_lit|reflexivity])).
  assert (U' : wf u' /\ List.length u' = 8%nat) by (unfold u'; destruct ps'; (split; [wf_lit|reflexivity])).
  destruct (authority_ok (AUid u) U) as [Wa La]. destruct (authority_ok (AUid u') U') as [Wa' La'].
  assert (Wsp : wf ADMINSP_UID) by wf_lit.
  rewrite !start_unfold by exact Hs.
  assert (B : block (cmd_slice (stamp s0 com (start_command E d s0 ADMINSP_UID pw (authority_bytes (AUid u)))))).
  { rewrite (start_framed E d s0 ADMINSP_UID pw _ 0 0 com) by auto. split; [apply frame_length|]. apply frame_wf, start_payload_wf; auto. apply HE. }
  assert (B' : block (cmd_slice (stamp s0' com (start_command E d s0' ADMINSP_UID pw' (authority_bytes (AUid u')))))).
  { rewrite (start_framed E d s0' ADMINSP_UID pw' _ 0 0 com) by auto. split; [apply frame_length|]. apply frame_wf, start_payload_wf; auto. apply HE. }
  destruct (send_blind com E d s0 s0' _ _ h h' HB Hc Hs S B B') as [X Y].
  destruct (send_command E d s0 _ h) as [h1 r1], (send_command E d s0' _ h') as [h2 r2]. cbn [fst snd] in X, Y. subst r2.
  destruct r1 as [[[resp|] [e|]]|e| |]; try (cbn [fst snd]; auto; fail).
  destruct (get_token resp 4) as [[t4|]| | |], (get_token resp 5) as [[t5|]| | |]; try (cbn [fst snd]; auto; fail).
  destruct (get_uint32 t4) as [v4| | |] eqn:E4; try (cbn [fst snd]; auto; fail). destruct (get_uint32 t5) as [v5| | |] eqn:E5; try (cbn [fst snd]; auto; fail).
  cbv zeta.
  set (s1 := set_tsn_num (set_hsn_num s0 _) _). set (s1' := set_tsn_num (set_hsn_num s0' _) _).
  assert (N1 : numbers s1 v4 v5) by (split; reflexivity).
  assert (N1' : numbers s1' v4 v5) by (split; reflexivity).
  destruct (send_blind com E d s1 s1' revert_command revert_command h1 h2 HB Hc Hs Y) as [X2 Y2].
  1,2: rewrite (revert_framed _ _ _ com) by eauto; split; [apply frame_length|apply frame_wf, revert_payload_wf].
  destruct (send_command E d s1 revert_command h1) as [h3 r3], (send_command E d s1' revert_command h2) as [h4 r4]. cbn [fst snd] in X2, Y2 |- *. subst r4. auto.
Qed.

(** ---- the drivers ---- *)
Lemma scsi_send S h hd cdb b b' addr baddr secs : block b -> block b' -> (List.length cdb <= 16)%nat ->
  win_scsi S h hd true cdb b addr baddr secs = win_scsi S h hd true cdb b' addr baddr secs
  /\ exists e, @snd whist wpt (win_scsi S h hd true cdb b addr baddr secs) = Ok (e, zeros 512).
Proof.
  intros [L _] [L' _] Hc. assert (Ne : b <> []) by (intros ->; discriminate L). split.
  - unfold win_scsi, blen. rewrite L, L'. reflexivity.
  - rewrite win_scsi_closed by assumption. cbv zeta. set (a1 := s_io S _). destruct (wa_err a1 =? 0); cbn [snd]; unfold sent0, tries_kept; cbn [negb andb]; rewrite L; eauto.
    set (a2 := s_io S _). destruct (wa_err a2 =? 0); eauto.
Qed.
Lemma ata_send S h hd dma t b b' addr baddr secs : block b -> block b' -> t_command t < 256 ->
  win_ata S h hd true dma t b addr baddr secs = win_ata S h hd true dma t b' addr baddr secs
  /\ exists e, @snd whist wpt (win_ata S h hd true dma t b addr baddr secs) = Ok (e, zeros 512).
Proof.
  intros [L _] [L' _] Hc. assert (Ne : b <> []) by (intros ->; discriminate L). split.
  - unfold win_ata, blen. rewrite L, L'. reflexivity.
  - rewrite win_ata_closed by assumption. cbv zeta. set (a1 := s_io S _). destruct (wa_err a1 =? 0); cbn [snd]; unfold sent0, tries_kept; cbn [negb andb]; rewrite L; eauto.
    set (a2 := s_io S _). destruct (wa_err a2 =? 0); eauto.
Qed.
Lemma fill_512 b x : block b -> List.length x = 512%nat -> fill b x = x.
Proof. intros [L _] Lx. apply fill_whole. congruence. Qed.
Lemma len_512 : List.length (zeros 512) = 512%nat.
Proof. reflexivity. Qed.
Lemma block_zeros : block (zeros 512).
Proof. split; [reflexivity|apply wf_zeros]. Qed.
Lemma security_cdb_len op a b c d e f g : (List.length (pack_security op a b c d e f g) <= 16)%nat.
Proof. cbn. lia. Qed.

(** A send: what the system is asked and the caller's results do not depend on the bytes. *)
Lemma security_blind S A d h0 p h h' dma pr c b b' s :
  let V := win_drv S A d h0 in
  wd_kind d <> KNvmeWin -> over_win d p -> block b -> block b' -> win_replay S A d h0 h = win_replay S A d h0 h' ->
  let x := security_command V p h true dma pr c b s in
  let y := security_command V p h' true dma pr c b' s in
  win_replay S A d h0 (fst x) = win_replay S A d h0 (fst y) /\ snd x = snd y.
Proof.
  intros V Hk Hp B B' R. cbv zeta. unfold security_command. unfold over_win in Hp. rewrite Hp. cbv zeta.
  assert (Lb : blen b' = blen b) by (unfold blen; destruct B, B'; congruence). rewrite Lb.
  destruct (wd_kind d) eqn:K; [congruence|..]; cbn [win_dtype is_ata is_nvme].
  - (* KWinNvme *)
    assert (X : forall k q, win_exec S A d k (CSec true dma pr c q s) = win_security S k (wd_handle d) true dma pr c q (ad_data A k) (ad_bounce A k) (Z.of_N s))
      by (intros; unfold win_exec; rewrite K; reflexivity).
    assert (X2 : forall k m, win_exec S A d k (CAdmin m) = (k, Ok (Some not_supported, c_data m))) by (intros; unfold win_exec; rewrite K; reflexivity).
    set (k := win_replay S A d h0 h) in *. set (cdb := pack_security 0xB5 pr c 0 0 (blen b mod 2 ^ 32) 0 0).
    destruct (scsi_send S k (wd_handle d) cdb b b' (ad_data A k) (ad_bounce A k) (Z.of_N s) B B' (security_cdb_len _ _ _ _ _ _ _ _)) as [Eq (e & Es)].
    assert (V1 : v_io V (h ++ [CSec true dma pr c b s]) = (e, zeros 512)).
    { unfold V. rewrite win_drv_io. fold k. rewrite X. unfold win_security. cbv iota. fold cdb. rewrite Es. reflexivity. }
    assert (V1' : v_io V (h' ++ [CSec true dma pr c b' s]) = (e, zeros 512)).
    { unfold V. rewrite win_drv_io, <- R, X. unfold win_security. cbv iota. rewrite Lb. fold cdb. rewrite <- Eq, Es. reflexivity. }
    rewrite V1, V1', !fill_512 by auto using len_512.
    assert (Rs : win_replay S A d h0 (h ++ [CSec true dma pr c b s]) = win_replay S A d h0 (h' ++ [CSec true dma pr c b' s])).
    { rewrite !win_replay_app, <- R. fold k. rewrite !step_sec, !X. unfold win_security. cbv iota. rewrite Lb. fold cdb. now rewrite Eq. }
    destruct e as [e|]; [|split; [exact Rs|reflexivity]].
    match goal with |- context [CAdmin ?q] => set (m := q) end.
    assert (V2 : forall g, v_io V (g ++ [CAdmin m]) = (Some not_supported, zeros 512)) by (intros g; unfold V; rewrite win_drv_io, X2; reflexivity).
    rewrite !V2. cbn [fst snd]. split; [|reflexivity]. rewrite !(win_replay_app S A d h0 (_ ++ _)), !step_admin, !X2. exact Rs.
  - (* KScsi *)
    assert (X : forall k q, win_exec S A d k (CSec true dma pr c q s) = win_security S k (wd_handle d) true dma pr c q (ad_data A k) (ad_bounce A k) (Z.of_N s))
      by (intros; unfold win_exec; rewrite K; reflexivity).
    set (k := win_replay S A d h0 h) in *. set (cdb := pack_security 0xB5 pr c 0 0 (blen b mod 2 ^ 32) 0 0).
    destruct (scsi_send S k (wd_handle d) cdb b b' (ad_data A k) (ad_bounce A k) (Z.of_N s) B B' (security_cdb_len _ _ _ _ _ _ _ _)) as [Eq (e & Es)].
    assert (V1 : v_io V (h ++ [CSec true dma pr c b s]) = (e, zeros 512)).
    { unfold V. rewrite win_drv_io. fold k. rewrite X. unfold win_security. cbv iota. fold cdb. rewrite Es. reflexivity. }
    assert (V1' : v_io V (h' ++ [CSec true dma pr c b' s]) = (e, zeros 512)).
    { unfold V. rewrite win_drv_io, <- R, X. unfold win_security. cbv iota. rewrite Lb. fold cdb. rewrite <- Eq, Es. reflexivity. }
    rewrite V1, V1', !fill_512 by auto using len_512.
    assert (Rs : win_replay S A d h0 (h ++ [CSec true dma pr c b s]) = win_replay S A d h0 (h' ++ [CSec true dma pr c b' s])).
    { rewrite !win_replay_app, <- R. fold k. rewrite !step_sec, !X. unfold win_security. cbv iota. rewrite Lb. fold cdb. now rewrite Eq. }
    destruct e as [e|]; [|split; [exact Rs|reflexivity]].
    match goal with |- context [CTask true dma ?q (zeros 512) s] => set (t := q) end. set (tk := CTask true dma t (zeros 512) s).
    assert (V2 : v_io V ((h' ++ [CSec true dma pr c b' s]) ++ [tk]) = v_io V ((h ++ [CSec true dma pr c b s]) ++ [tk])) by (unfold V; rewrite !win_drv_io, <- Rs; reflexivity).
    rewrite V2. destruct (v_io V ((h ++ _) ++ [tk])) as [e2 n2]. cbn [fst snd]. split; [|reflexivity]. rewrite !(win_replay_app S A d h0 (_ ++ _)), Rs. reflexivity.
  - (* KAta *)
    assert (X : forall k q, win_exec S A d k (CSec true dma pr c q s) = (k, Ok (Some not_supported, q))) by (intros; unfold win_exec; rewrite K; reflexivity).
    assert (V1 : forall g q, v_io V (g ++ [CSec true dma pr c q s]) = (Some not_supported, q)) by (intros; unfold V; rewrite win_drv_io, X; reflexivity).
    rewrite !V1, !fill_same.
    match goal with |- context [CTask true dma ?q b s] => set (t := q) end.
    assert (Rs : forall g q, win_replay S A d h0 (g ++ [CSec true dma pr c q s]) = win_replay S A d h0 g) by (intros; rewrite win_replay_app, step_sec, X; reflexivity).
    assert (X2 : forall k q, win_exec S A d k (CTask true dma t q s) = win_ata S k (wd_handle d) true dma t q (ad_data A k) (ad_bounce A k) (Z.of_N s))
      by (intros; unfold win_exec; rewrite K; reflexivity).
    set (k := win_replay S A d h0 h) in *.
    assert (Tc : t_command t < 256) by (unfold t; cbn [t_command]; destruct dma; reflexivity).
    destruct (ata_send S k (wd_handle d) dma t b b' (ad_data A k) (ad_bounce A k) (Z.of_N s) B B' Tc) as [Eq (e & Es)].
    assert (V2 : v_io V ((h ++ [CSec true dma pr c b s]) ++ [CTask true dma t b s]) = (e, zeros 512)).
    { unfold V. rewrite win_drv_io, Rs. fold k. rewrite X2, Es. reflexivity. }
    assert (V2' : v_io V ((h' ++ [CSec true dma pr c b' s]) ++ [CTask true dma t b' s]) = (e, zeros 512)).
    { unfold V. rewrite win_drv_io, Rs, <- R, X2, <- Eq, Es. reflexivity. }
    rewrite V2, V2', !fill_512 by auto using len_512. cbn [fst snd]. split; [|reflexivity].
    rewrite !(win_replay_app S A d h0 (_ ++ _)), !step_task, !Rs, <- R. fold k. now rewrite !X2, Eq.
Qed.
(** Any command: the answer depends on the earlier calls only through what the system saw. *)
Lemma security_same S A d h0 p h h' rw dma pr c b s :
  let V := win_drv S A d h0 in
  win_replay S A d h0 h = win_replay S A d h0 h' ->
  let x := security_command V p h rw dma pr c b s in
  let y := security_command V p h' rw dma pr c b s in
  win_replay S A d h0 (fst x) = win_replay S A d h0 (fst y) /\ snd x = snd y.
Proof.
  intros V R. cbv zeta. unfold security_command. destruct (p_dh p) as [ty|]; [|cbn [fst snd]; auto]. cbv zeta.
  assert (G : forall g g' q, win_replay S A d h0 g = win_replay S A d h0 g' -> v_io V (g ++ [q]) = v_io V (g' ++ [q])
    /\ win_replay S A d h0 (g ++ [q]) = win_replay S A d h0 (g' ++ [q])).
  { intros g g' q Q. split; [unfold V; rewrite !win_drv_io, Q; reflexivity|rewrite !win_replay_app, Q; reflexivity]. }
  destruct (G h h' (CSec rw dma pr c b s) R) as [V1 R1]. rewrite <- V1. destruct (v_io V _) as [[e1|] n1]; [|cbn [fst snd]; auto].
  destruct (is_ata ty).
  { match goal with |- context [_ ++ [CTask ?x ?y ?z ?u ?v]] => destruct (G _ _ (CTask x y z u v) R1) as [V2 R2] end.
    rewrite <- V2. destruct (v_io V ((h ++ _) ++ _)) as [e2 n2]. cbn [fst snd]. split; [exact R2|reflexivity]. }
  destruct (is_nvme ty); [|cbn [fst snd]; auto].
  match goal with |- context [_ ++ [CAdmin ?x]] => destruct (G _ _ (CAdmin x) R1) as [V2 R2] end.
  rewrite <- V2. destruct (v_io V ((h ++ _) ++ _)) as [e2 n2]. cbn [fst snd]. split; [exact R2|reflexivity].
Qed.

Lemma calls_blind S A d h0 p com : wd_kind d <> KNvmeWin -> over_win d p -> forall t t', similar com t t' -> forall g g', win_replay S A d h0 g = win_replay S A d h0 g' ->
  let V := win_drv S A d h0 in
  win_replay S A d h0 (driver_calls V p g t) = win_replay S A d h0 (driver_calls V p g' t').
Proof.
  intros Hk Hp t t' F. cbv zeta. set (V := win_drv S A d h0).
  induction F as [|e e' t t' H _ IH]; intros g g' R; [exact R|].
  destruct e as [| |[] dma pr c b s], e' as [| |[] dma' pr' c' b' s']; cbn [similar_ev] in H; try contradiction; try (now apply IH).
  - destruct H as (<- & -> & -> & -> & -> & <- & B & B').
    change (driver_calls V p g (EvSec true dma 1 com b s :: t)) with (driver_calls V p (fst (security_command V p g true dma 1 com b s)) t).
    change (driver_calls V p g' (EvSec true dma 1 com b' s :: t')) with (driver_calls V p (fst (security_command V p g' true dma 1 com b' s)) t').
    apply IH. apply (security_blind S A d h0 p g g' dma 1 com b b' s Hk Hp B B' R).
  - destruct H as (<- & -> & -> & -> & -> & <- & -> & ->).
    change (driver_calls V p g (EvSec false dma 1 com (zeros 2048) s :: t)) with (driver_calls V p (fst (security_command V p g false dma 1 com (zeros 2048) s)) t).
    change (driver_calls V p g' (EvSec false dma 1 com (zeros 2048) s :: t')) with (driver_calls V p (fst (security_command V p g' false dma 1 com (zeros 2048) s)) t').
    apply IH. apply (security_same S A d h0 p g g' false dma 1 com (zeros 2048) s R).
Qed.

Lemma drive_blind S A d h0 p g com clock kdf heap fuel : wd_kind d <> KNvmeWin -> over_win d p -> com < 2 ^ 16 ->
  blind com (drive_env (win_drv S A d h0) p g (fun t => clock (List.length t)) kdf heap fuel).
Proof.
  intros Hk Hp Hc t t' F. split; [|cbn [drive_env e_clock]; f_equal; clear - F; induction F; cbn; congruence].
  pose proof (similar_typed com t t' Hc F) as [T _]. pose proof (similar_typed com t' t Hc (similar_sym com t t' F)) as [T' _].
  apply typed_ev_iff in T, T'. cbn [drive_env e_sec]. rewrite T, T'.
  assert (Fr : Forall2 (similar_ev com) (rev t) (rev t')) by (clear - F; induction F; cbn [rev]; [constructor|apply Forall2_app; auto]).
  destruct Fr as [|e e' r r' H Fr]; [reflexivity|].
  assert (Fb : similar com (rev r) (rev r')) by (clear - Fr; induction Fr; cbn [rev]; [constructor|apply Forall2_app; auto; constructor; auto; constructor]).
  pose proof (calls_blind S A d h0 p com Hk Hp _ _ Fb g g eq_refl) as R. cbv zeta in R.
  destruct e as [| |[] dma pr c b s], e' as [| |[] dma' pr' c' b' s']; cbn [similar_ev] in H; try contradiction; try reflexivity.
  - destruct H as (<- & -> & -> & -> & -> & <- & B & B'). apply (security_blind S A d h0 p _ _ dma 1 com b b' s Hk Hp B B' R).
  - destruct H as (<- & -> & -> & -> & -> & <- & -> & ->). apply (security_same S A d h0 p _ _ false dma 1 com (zeros 2048) s R).
Qed.

(** ---- bytes stay bytes ---- *)
Definition wf_system (S : wsys) : Prop := forall k, wf (wa_out (s_io S k)) /\ wf (wa_mem (s_io S k)).
Lemma scsi_wf S h hd rw cdb b addr baddr secs : wf_system S -> wf b -> (List.length cdb <= 16)%nat ->
  match @snd whist wpt (win_scsi S h hd rw cdb b addr baddr secs) with Ok x => wf (snd x) | _ => True end.
Proof.
  intros HS W Hc. destruct (list_eq_dec N.eq_dec b []) as [->|Ne]; [rewrite win_scsi_empty; exact I|].
  rewrite win_scsi_closed by assumption. cbv zeta. set (a1 := s_io S _). set (c1 := scsi_c1 _ _ _ _ _ _ _). set (a2 := s_io S _).
  assert (W0 : wf (sent0 rw b)) by (unfold sent0; destruct rw; auto using wf_zeros).
  assert (Wm : wf (wc_mem c1)) by (unfold c1, scsi_c1, tries_first; cbn [wc_mem]; destruct (rw || al addr); auto using wf_zeros).
  assert (Wk : wf (tries_kept rw (sent0 rw b) addr a1)) by (unfold tries_kept; destruct (negb rw && al addr); auto; apply wf_fill; auto; apply HS).
  destruct (wa_err a1 =? 0); cbn [snd]; [destruct rw; auto; apply wf_fill; auto; apply HS|].
  destruct (wa_err a2 =? 0); cbn [snd]; [destruct rw; auto; apply wf_fill; auto; apply wf_skipn, HS|auto].
Qed.
Lemma ata_wf S h hd rw dma t b addr baddr secs : wf_system S -> wf b -> t_command t < 256 ->
  match @snd whist wpt (win_ata S h hd rw dma t b addr baddr secs) with Ok x => wf (snd x) | _ => True end.
Proof.
  intros HS W Hc. destruct (list_eq_dec N.eq_dec b []) as [->|Ne]; [rewrite win_ata_empty; exact I|].
  rewrite win_ata_closed by assumption. cbv zeta. set (a1 := s_io S _). set (c1 := ata_c1 _ _ _ _ _ _ _). set (a2 := s_io S _).
  assert (W0 : wf (sent0 rw b)) by (unfold sent0; destruct rw; auto using wf_zeros).
  assert (Wm : wf (wc_mem c1)) by (unfold c1, ata_c1, tries_first; cbn [wc_mem]; destruct (rw || al addr); auto using wf_zeros).
  assert (Wk : wf (tries_kept rw (sent0 rw b) addr a1)) by (unfold tries_kept; destruct (negb rw && al addr); auto; apply wf_fill; auto; apply HS).
  destruct (wa_err a1 =? 0); cbn [snd]; [destruct rw; auto; apply wf_fill; auto; apply HS|].
  destruct (wa_err a2 =? 0); cbn [snd]; [destruct rw; auto; apply wf_fill; auto; apply wf_skipn, HS|auto].
Qed.
Lemma miniport_wf S h hd c : wf_system S -> wf (c_data c) -> c_data_addr c = 0 -> wf (c_data (fst (snd (snd (miniport_admin S h hd c []))))).
Proof.
  intros HS W Z. unfold miniport_admin. destruct (4096 <? c_data_len c); [exact W|]. rewrite Z. cbn [N.eqb negb]. unfold win_same, win_io. cbn [wc_in].
  unfold win_result. set (a := s_io S _). destruct (wa_err a =? 0); [|exact W]. cbn [fst snd set_c_data c_data].
  apply wf_fill; [exact W|]. apply wf_firstn, wf_slice, wf_fill; [|apply HS].
  unfold miniport_mem. rewrite !wf_app. repeat split; try apply le_bytes_wf; try apply wf_zeros; try wf_lit.
  apply wf_fill; [apply wf_zeros|exact W].
Qed.
Lemma task_cdb_len t : (List.length (win_task_cdb t) <= 16)%nat.
Proof. unfold win_task_cdb. destruct (negb _); cbn; lia. Qed.
Lemma v_io_wf S A d h0 h rw dma pr c b s : wf_system S -> wf b ->
  wf (snd (v_io (win_drv S A d h0) (h ++ [CSec rw dma pr c b s]))).
Proof.
  intros HS W. rewrite win_drv_io. unfold win_exec. destruct (wd_kind d); try exact W.
  1,2: unfold win_security; match goal with |- context [win_scsi ?a ?b ?c ?d ?e ?f ?g ?h ?i] => pose proof (scsi_wf a b c d e f g h i HS W (security_cdb_len _ _ _ _ _ _ _ _)) as Q;
       destruct (@snd whist wpt (win_scsi a b c d e f g h i)); [exact Q|apply wf_nil..] end.
Qed.
Lemma win_bytes_out S A d h0 p : wf_system S -> over_win d p -> bytes_out (win_drv S A d h0) p.
Proof.
  intros HS Hp h rw dma pr c b s Hpr Hc W L. unfold security_command. unfold over_win in Hp. rewrite Hp. cbv zeta.
  pose proof (v_io_wf S A d h0 h rw dma pr c b s HS W) as W1. destruct (v_io _ _) as [[e1|] n1]; cbn [snd] in W1 |- *; [|now apply wf_fill].
  pose proof (wf_fill b n1 W W1) as Wb. destruct (wd_kind d) eqn:K; cbn [win_dtype is_ata is_nvme].
  1,2: match goal with |- context [CAdmin ?q] => set (m := q) end;
       destruct (v_io _ _) as [e2 n2] eqn:E2; cbn [snd]; apply wf_fill; [exact Wb|];
       rewrite win_drv_io in E2; unfold win_exec in E2; rewrite K in E2.
  - match type of E2 with context [miniport_admin ?a ?b ?c ?d []] => pose proof (miniport_wf a b c d HS Wb eq_refl) as Q; destruct (miniport_admin a b c d []) as [k [e3 [c3 x3]]] end.
    cbn [fst snd] in E2, Q. injection E2 as _ <-. exact Q.
  - cbn [snd] in E2. injection E2 as _ <-. exact Wb.
  - match goal with |- context [CTask rw dma ?q ?w s] => set (t := q) in * end.
    destruct (v_io _ ((h ++ _) ++ _)) as [e2 n2] eqn:E2. cbn [snd]. apply wf_fill; [exact Wb|].
    rewrite win_drv_io in E2; unfold win_exec in E2; rewrite K in E2. unfold win_task_file in E2.
    match type of E2 with context [win_scsi ?a ?b ?c ?d ?e ?f ?g ?h ?i] => pose proof (scsi_wf a b c d e f g h i HS Wb (task_cdb_len _)) as Q;
       destruct (@snd whist wpt (win_scsi a b c d e f g h i)) as [x| | |] end; [subst x; exact Q|injection E2 as _ <-; apply wf_nil..].
  - match goal with |- context [CTask rw dma ?q ?w s] => set (t := q) in * end.
    assert (Tc : t_command t < 256) by (unfold t; cbn [t_command]; destruct rw, dma; reflexivity).
    destruct (v_io _ ((h ++ _) ++ _)) as [e2 n2] eqn:E2. cbn [snd]. apply wf_fill; [exact Wb|].
    rewrite win_drv_io in E2; unfold win_exec in E2; rewrite K in E2.
    match type of E2 with context [win_ata ?a ?b ?c ?d ?e ?f ?g ?h ?i ?j] => pose proof (ata_wf a b c d e f g h i j HS Wb Tc) as Q;
       destruct (@snd whist wpt (win_ata a b c d e f g h i j)) as [x| | |] end; [subst x; exact Q|injection E2 as _ <-; apply wf_nil..].
Qed.

(** ---- what the system has seen only grows ---- *)
Lemma scsi_extends S h hd rw cdb b addr baddr secs : (List.length cdb <= 16)%nat -> exists grp, fst (win_scsi S h hd rw cdb b addr baddr secs) = h ++ grp.
Proof.
  intros Hc. destruct (list_eq_dec N.eq_dec b []) as [->|Ne]; [rewrite win_scsi_empty; exists []; now rewrite app_nil_r|].
  rewrite win_scsi_closed by assumption. cbv zeta. destruct (_ =? 0); cbn [fst]; eauto.
Qed.
Lemma ata_extends S h hd rw dma t b addr baddr secs : t_command t < 256 -> exists grp, fst (win_ata S h hd rw dma t b addr baddr secs) = h ++ grp.
Proof.
  intros Hc. destruct (list_eq_dec N.eq_dec b []) as [->|Ne]; [rewrite win_ata_empty; exists []; now rewrite app_nil_r|].
  rewrite win_ata_closed by assumption. cbv zeta. destruct (_ =? 0); cbn [fst]; eauto.
Qed.
Lemma step_extends S A d k q : match q with CTask _ _ t _ _ => t_command t < 256 | CLogPage _ _ _ _ => False | _ => True end -> exists grp, fst (win_exec S A d k q) = k ++ grp.
Proof.
  assert (Z : forall r : wpt, exists grp, fst (k, r) = k ++ grp) by (intros; exists []; cbn; now rewrite app_nil_r).
  intros H. unfold win_exec. destruct q as [| | | | | | |]; try contradiction; destruct (wd_kind d); try apply Z;
    try (unfold win_security; apply scsi_extends, security_cdb_len); try (unfold win_task_file; apply scsi_extends, task_cdb_len); try (now apply ata_extends);
    try (unfold close_handle; cbn [fst]; eauto).
  unfold miniport_admin. destruct (4096 <? _); [apply Z|]. unfold win_same, win_io. cbn [wc_in]. destruct (win_result _); cbn [fst]; eauto.
  destruct (negb _); cbn [fst]; eauto.
Qed.
Lemma win_extends S A d h0 p g rw dma pr c b s : exists grp,
  win_replay S A d h0 (fst (security_command (win_drv S A d h0) p g rw dma pr c b s)) = win_replay S A d h0 g ++ grp.
Proof.
  unfold security_command. destruct (p_dh p) as [ty|]; [|exists []; cbn [fst]; now rewrite app_nil_r]. cbv zeta.
  assert (G1 : exists grp, win_replay S A d h0 (g ++ [CSec rw dma pr c b s]) = win_replay S A d h0 g ++ grp)
    by (rewrite win_replay_app, step_sec; now apply step_extends).
  destruct G1 as (g1 & G1). destruct (v_io _ (g ++ _)) as [[e1|] n1]; [|exists g1; exact G1].
  destruct (is_ata ty); [|destruct (is_nvme ty); [|exists g1; exact G1]].
  - match goal with |- context [CTask rw dma ?q ?w s] => set (t := q) in *; set (w' := w) end.
    assert (Tc : t_command t < 256) by (unfold t; cbn [t_command]; destruct rw, dma; reflexivity).
    destruct (step_extends S A d (win_replay S A d h0 g ++ g1) (CTask rw dma t w' s) Tc) as (g2 & G2).
    destruct (v_io _ ((g ++ _) ++ _)) as [e2 n2]. cbn [fst]. exists (g1 ++ g2). rewrite (win_replay_app _ _ _ _ (_ ++ _)), G1, step_task, G2. now rewrite app_assoc.
  - match goal with |- context [CAdmin ?q] => set (m := q) in * end.
    destruct (step_extends S A d (win_replay S A d h0 g ++ g1) (CAdmin m) I) as (g2 & G2).
    destruct (v_io _ ((g ++ _) ++ _)) as [e2 n2]. cbn [fst]. exists (g1 ++ g2). rewrite (win_replay_app _ _ _ _ (_ ++ _)), G1, step_admin, G2. now rewrite app_assoc.
Qed.
