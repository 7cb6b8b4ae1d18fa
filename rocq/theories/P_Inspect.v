(** Lemmas for C142, C143: the driver calls an inspecting program causes. *)
From Verif Require Import Base M_Buffer M_Struc M_Layouts M_Ata M_TcgDevice M_DriveHandle M_Cdb M_SgDriver M_SgHandle M_NvmeLinux Spec_Sg Spec_NvmeLinux Spec_Inspect
  P_Discovery P_DriveHandle P_Sg P_NvmeLinux Prop_Sg Prop_NvmeLinux Prop_SgHandle Prop_WinDrive.

(** Driver calls that only read. *)
Definition gentle (c : dcall) : Prop :=
  match c with
  | CSec rw _ protocol comId buffer _ => rw = false /\ protocol < 256 /\ comId < 2 ^ 16 /\ blen buffer < 2 ^ 32
  | CTask rw _ t _ _ => rw = false /\ wf_tf t /\ In (t_command t) [0x5C; 0x5D]
  | CAdmin c => c_opcode c = 0x82
  | CLogPage nsid logId _ _ => nsid < 2 ^ 32 /\ logId < 2 ^ 32
  | CIdentity | CClose | CType | CName => True
  end.

Definition adds (P : dcall -> Prop) (h h' : dhist) : Prop := exists cs, h' = h ++ cs /\ Forall P cs.
Lemma adds_refl P h : adds P h h.
Proof. exists []. now rewrite app_nil_r. Qed.
Lemma adds_one (P : dcall -> Prop) h c : P c -> adds P h (h ++ [c]).
Proof. intros H. exists [c]. auto. Qed.
Lemma adds_trans P h1 h2 h3 : adds P h1 h2 -> adds P h2 h3 -> adds P h1 h3.
Proof. intros (a & -> & A) (b & -> & B). exists (a ++ b). rewrite app_assoc. split; [reflexivity|]. apply Forall_app. auto. Qed.

Lemma security_gentle V p h dma pr c b s h' x : pr < 256 -> c < 2 ^ 16 -> blen b < 2 ^ 32 ->
  security_command V p h false dma pr c b s = (h', x) -> adds gentle h h'.
Proof.
  intros Hp Hc Hb H. unfold security_command in H. destruct (p_dh p) as [ty|]; [|injection H as <- _; apply adds_refl].
  pose proof (trusted_wf false dma pr c b Hp) as W.
  destruct (v_io V (h ++ [CSec false dma pr c b s])) as [e1 n1].
  assert (G1 : adds gentle h (h ++ [CSec false dma pr c b s])) by (apply adds_one; cbn; auto).
  destruct e1 as [e1|]; [|injection H as <- _; exact G1].
  destruct (is_ata ty).
  - match type of H with context [v_io V ?hh] => destruct (v_io V hh) as [e2 n2] end. injection H as <- _.
    apply (adds_trans _ _ _ _ G1), adds_one. cbn [gentle]. split; [reflexivity|]. destruct dma; (split; [exact W|cbn; auto]).
  - destruct (is_nvme ty); [|injection H as <- _; exact G1].
    match type of H with context [v_io V ?hh] => destruct (v_io V hh) as [e2 n2] end. injection H as <- _.
    apply (adds_trans _ _ _ _ G1), adds_one. reflexivity.
Qed.
Lemma discovery_gentle V p h h' x : tcg_discovery0 V p h = (h', x) -> adds gentle h h'.
Proof.
  unfold tcg_discovery0. destruct (security_command V p h false false 1 1 (zeros 2048) 3) as [h1 [e buf]] eqn:E. intros H.
  apply security_gentle in E; [|reflexivity|reflexivity|vm_compute; reflexivity].
  enough (h1 = h') by (subst; exact E).
  destruct e; [injection H; auto|]. destruct (struc_unpack _ _ _); try (injection H; auto; fail).
  destruct (_ <? _); [injection H; auto|]. destruct (discovery_loop _ _ _ _ _ _ _). injection H. auto.
Qed.
Lemma init_gentle V p h h' x : init V p h = (h', x) -> adds gentle h h'.
Proof.
  unfold init. set (ty := match p_dh p with Some t => t | None => _ end). clearbody ty.
  assert (I : forall hh, adds gentle hh (hh ++ [CIdentity])) by (intros; apply adds_one; exact I).
  assert (T : forall q hh h' x, init_tail V q hh = (h', x) -> adds gentle hh h').
  { intros q hh h2 y. unfold init_tail. destruct (tcg_discovery0 _ _ hh) as [h3 [p3 r3]] eqn:E. intros [= <- _]. now apply discovery_gentle in E. }
  intros H.
  destruct (if is_ata ty then _ else _) as [h1 [i1 r1]] eqn:E1.
  assert (G1 : adds gentle h h1).
  { destruct (is_ata ty); [injection E1 as <- _; apply I|injection E1 as <- _ _; apply adds_refl]. }
  destruct r1; try (injection H as <- _; exact G1).
  destruct (if is_nvme ty then _ else _) as [h2 [i2 r2]] eqn:E2.
  assert (G2 : adds gentle h h2).
  { apply (adds_trans _ _ _ _ G1). destruct (is_nvme ty); [injection E2 as <- _; apply I|injection E2 as <- _ _; apply adds_refl]. }
  destruct r2; try (injection H as <- _; exact G2).
  apply (adds_trans _ _ _ _ G2). eapply T; exact H.
Qed.
Lemma hstep_gentle V p h o h' x : inspects o -> hstep V p h o = (h', x) -> adds gentle h h'.
Proof.
  intros Ho H. destruct o; cbn [hstep inspects] in *.
  - destruct (init V p h) as [h1 [p1 r]] eqn:E. injection H as <- _. now apply init_gentle in E.
  - unfold close in H. destruct (p_dh p); injection H as <- _; [apply adds_one; exact I|apply adds_refl].
  - unfold get_driving_type in H. destruct (p_dh p); injection H as <- _; [apply adds_one; exact I|apply adds_refl].
  - unfold get_driver_name in H. destruct (p_dh p); injection H as <- _; [apply adds_one; exact I|apply adds_refl].
  - destruct (tcg_discovery0 V p h) as [h1 [p1 r]] eqn:E. injection H as <- _. now apply discovery_gentle in E.
  - destruct Ho as (-> & A & B & C). destruct (security_command _ _ _ _ _ _ _ _ _) as [h1 [e b]] eqn:E. injection H as <- _.
    now apply security_gentle in E.
  - destruct Ho.
  - destruct (nvme_get_log_page V p h nsid logId rae size) as [h1 [b e]] eqn:E. injection H as <- _. unfold nvme_get_log_page in E.
    destruct (p_dh p) as [ty|]; [|injection E as <- _; apply adds_refl].
    destruct (is_nvme ty); injection E as E _; subst h1; [apply adds_one; exact Ho|apply adds_refl].
Qed.
Lemma hrun_gentle V ops : forall p h, Forall inspects ops -> adds gentle h (fst (hrun V p h ops)).
Proof.
  induction ops as [|o ops IH]; intros p h H; cbn [hrun]; [apply adds_refl|]. inversion H; subst.
  destruct (hstep V p h o) as [h1 [p1 r]] eqn:E. specialize (IH p1 h1 H3).
  destruct (hrun V p1 h1 ops) as [h2 [p2 rs]]. cbn [fst] in *.
  apply (adds_trans _ _ _ _ (hstep_gentle _ _ _ _ _ _ H2 E) IH).
Qed.

(** ---- the SG driver ---- *)
Lemma sg_exec_reads K A kh c : gentle c -> exists cs, fst (sg_exec K A kh c) = kh ++ cs /\ Forall sg_reads cs.
Proof.
  intros G. assert (Z : exists cs, kh = kh ++ cs /\ Forall sg_reads cs) by (exists []; now rewrite app_nil_r).
  destruct c; cbn [sg_exec gentle fst] in *; try exact Z.
  - destruct G as (-> & Hp & Hc & Hb). destruct (sg_security _ _ _ _ _ _ _ _ _) as [k1 r] eqn:E.
    destruct buffer as [|b0 buffer]; [rewrite security_empty in E; injection E as <- _; exact Z|].
    destruct (C65_security_command K kh false dma protocol comId (b0 :: buffer) (A kh) (Z.of_N timeoutSecs) k1 r Hc Hb ltac:(discriminate) E)
      as (e & got & c & rest & _ & -> & _ & F & _).
    exists (c :: rest). split; [reflexivity|]. apply Forall_forall. intros c' I. destruct (F c' I) as (D & Dir & _).
    split; [exact Dir|]. left. eexists. split; [exact D|reflexivity].
  - destruct G as (-> & Hw & Hc). destruct (sg_task_file _ _ _ _ _ _ _ _) as [k1 r] eqn:E.
    destruct (C58_task_file_requests _ _ _ _ _ _ _ _ _ _ Hw E) as (cs & -> & _ & F & _).
    exists cs. split; [reflexivity|]. eapply Forall_impl; [|exact F]. intros q (D & _ & Dir & _). cbn [has_data] in *.
    split; [exact Dir|]. right. eexists. split; [exact D|]. split; [reflexivity|]. cbn [sat_command]. unfold ata_reads. cbn in *. tauto.
Qed.
Lemma sg_replay_reads K A cs : forall kh, Forall gentle cs -> exists ss, sg_replay K A kh cs = kh ++ ss /\ Forall sg_reads ss.
Proof.
  induction cs as [|c cs IH]; intros kh H; [exists []; now rewrite app_nil_r|]. inversion H; subst.
  destruct (sg_exec_reads K A kh c H2) as (s1 & E1 & F1). unfold sg_replay. cbn [fold_left].
  destruct (IH (fst (sg_exec K A kh c)) H3) as (s2 & E2 & F2). unfold sg_replay in E2. rewrite E2, E1.
  exists (s1 ++ s2). rewrite app_assoc. split; [reflexivity|]. apply Forall_app. auto.
Qed.

(** ---- the NVMe driver ---- *)
Lemma opcode_byte a1 a2 a3 a4 a5 a6 a7 a8 a9 a10 a11 a12 a13 a14 a15 a16 a17 a18 : a1 < 256 ->
  up_opcode (read_passthru (passthru_mem a1 a2 a3 a4 a5 a6 a7 a8 a9 a10 a11 a12 a13 a14 a15 a16 a17 a18)) = a1.
Proof.
  intros H. unfold read_passthru, up_opcode, le_at, passthru_mem. change (slice 0 1 (le_bytes 1 a1 ++ _)) with (le_bytes 1 a1).
  now apply le_val_small.
Qed.
Lemma nv_admin_one K kh fd c addr : c_opcode c < 256 ->
  exists call, fst (nv_admin K kh fd c addr) = kh ++ [call] /\ nc_req call = 0xC0484E41 /\ up_opcode (read_passthru (nc_arg call)) = c_opcode c.
Proof.
  intros H. unfold nv_admin, nv_ioctl. cbn [fst]. eexists. split; [reflexivity|]. cbn [nc_req nc_arg]. split; [reflexivity|]. now apply opcode_byte.
Qed.
Lemma nv_admin_reads K kh fd c addr : In (c_opcode c) nvme_reads ->
  exists cs, fst (nv_admin K kh fd c addr) = kh ++ cs /\ Forall nv_reads cs.
Proof.
  intros H. destruct (nv_admin_one K kh fd c addr) as (call & E & R & O).
  { cbn in H. destruct H as [<-|[<-|[<-|[]]]]; reflexivity. }
  exists [call]. split; [exact E|]. constructor; [|constructor]. split; [exact R|]. now rewrite O.
Qed.
Lemma log_loop_calls V nsid logId rae n fuel : forall off data root h,
  exists cs, fst (log_page_loop V fuel nsid logId rae n off data root h) = h ++ cs
  /\ Forall (fun c => exists cmd, c = CAdmin cmd /\ c_opcode cmd = 0x02) cs.
Proof.
  induction fuel as [|f IH]; intros off data root h; cbn [log_page_loop].
  - destruct (n <=? off); cbn [fst]; exists []; now rewrite app_nil_r.
  - destruct (n <=? off); [cbn [fst]; exists []; now rewrite app_nil_r|].
    set (c := CAdmin (log_page_cmd nsid logId rae n data)).
    assert (C : exists cmd, c = CAdmin cmd /\ c_opcode cmd = 0x02) by (eexists; split; reflexivity). clearbody c.
    destruct (v_io V (h ++ [c])) as [e new]. destruct e as [e|].
    + destruct (IH (off + (if 4096 <? n - off then 4096 else n - off)) (fill data new) (Some e) (h ++ [c])) as (cs & E & F).
      rewrite E. exists (c :: cs). rewrite <- app_assoc. split; [reflexivity|]. constructor; assumption.
    + cbn [fst]. exists [c]. auto.
Qed.
Lemma nv_admins_reads K fd A cs : forall kh, Forall (fun c => exists cmd, c = CAdmin cmd /\ c_opcode cmd = 0x02) cs ->
  exists ss, fst (nv_admins K fd A kh cs) = kh ++ ss /\ Forall nv_reads ss.
Proof.
  induction cs as [|c cs IH]; intros kh H; [exists []; now rewrite app_nil_r|]. inversion H; subst. destruct H2 as (cmd & -> & O).
  destruct (nv_admin_reads K kh fd cmd (A kh)) as (s1 & E1 & F1); [rewrite O; cbn; auto|].
  cbn [nv_admins]. destruct (nv_admin K kh fd cmd (A kh)) as [k1 [e cmd']]. cbn [fst] in *. subst k1.
  destruct cs as [|c2 cs]; [cbn [fst]; exists s1; auto|].
  destruct (IH (kh ++ s1) H3) as (s2 & E2 & F2). rewrite E2. exists (s1 ++ s2). rewrite app_assoc. split; [reflexivity|]. apply Forall_app. auto.
Qed.
Lemma nv_exec_reads K fd A kh c : gentle c -> exists cs, fst (nv_exec K fd A kh c) = kh ++ cs /\ Forall nv_reads cs.
Proof.
  intros G. assert (Z : exists cs, kh = kh ++ cs /\ Forall nv_reads cs) by (exists []; now rewrite app_nil_r).
  destruct c; cbn [nv_exec gentle fst] in *; try exact Z.
  - destruct (nv_admin_reads K kh fd c (A kh)) as (s1 & E1 & F1); [rewrite G; cbn; auto|].
    destruct (nv_admin K kh fd c (A kh)) as [k1 [e cmd']]. cbn [fst] in *. exists s1. auto.
  - unfold nv_log_page, nvme_get_log_page_by_admin_passthru. destruct (size <? 0)%Z; [cbn [fst nv_admins]; exact Z|].
    destruct (log_page_loop _ _ nsid logId rae (Z.to_N size) 0 _ None []) as [cs r] eqn:E. cbn [fst].
    destruct (log_loop_calls (nv_admin_drv K fd A kh) nsid logId rae (Z.to_N size) (N.to_nat (Z.to_N size / 4096 + 1)) 0 (zeros (N.to_nat (Z.to_N size))) None [])
      as (cs' & E' & F). rewrite E in E'. cbn [fst app] in E'. subst cs'. now apply nv_admins_reads.
Qed.
Lemma nv_replay_reads K fd A cs : forall kh, Forall gentle cs -> exists ss, nv_replay K fd A kh cs = kh ++ ss /\ Forall nv_reads ss.
Proof.
  induction cs as [|c cs IH]; intros kh H; [exists []; now rewrite app_nil_r|]. inversion H; subst.
  destruct (nv_exec_reads K fd A kh c H2) as (s1 & E1 & F1). unfold nv_replay. cbn [fold_left].
  destruct (IH (fst (nv_exec K fd A kh c)) H3) as (s2 & E2 & F2). unfold nv_replay in E2. rewrite E2, E1.
  exists (s1 ++ s2). rewrite app_assoc. split; [reflexivity|]. apply Forall_app. auto.
Qed.
