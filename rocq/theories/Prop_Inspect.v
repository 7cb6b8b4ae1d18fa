(** C142, C143: looking at drives sends no writing command. *)
From Verif Require Import Base M_Buffer M_Struc M_Layouts M_Ata M_TcgDevice M_DriveHandle M_Cdb M_SgDriver M_SgHandle M_NvmeLinux M_Strings M_WinPass M_WinNvme M_WinInfo
  M_WinFactory M_WinEnum Spec_Sg Spec_NvmeLinux Spec_WinPass Spec_WinNvme Spec_Inspect Spec_InspectWin
  P_Discovery P_DriveHandle P_Sg P_NvmeLinux P_WinPass P_WinNvme Prop_Sg Prop_NvmeLinux Prop_SgHandle Prop_WinPass Prop_WinNvme Prop_WinDrive P_WinEnum
  P_Inspect P_InspectWin.

(** ---- C142: Linux ---- *)
(** Probing a device with the SG driver, and everything an inspecting program makes a drive handle over it do. *)
Theorem C142_linux_sata :
  (forall K h addr, addr mod 512 = 0 ->
     exists cs, fst (sg_open K h addr) = h ++ cs /\ Forall sg_reads cs)
  /\ (forall K A kh identity p before ops, Forall inspects ops ->
        exists cs, sg_replay K A kh (fst (hrun (sg_drv K A kh identity) p before ops)) = sg_replay K A kh before ++ cs /\ Forall sg_reads cs).
Proof.
  split.
  - intros K h addr Ha. destruct (sg_open K h addr) as [h' r] eqn:E. cbn [fst].
    destruct (C66_open _ _ _ _ _ Ha E) as (c1 & rest & -> & _ & F & _). exists (c1 :: rest). split; [reflexivity|].
    apply Forall_forall. intros c I. destruct (F c I) as (D & _ & Dir). split; [exact Dir|]. right. rewrite D. eexists. split; [vm_compute; reflexivity|]. cbn. auto.
  - intros K A kh identity p before ops Ho.
    destruct (hrun_gentle (sg_drv K A kh identity) ops p before Ho) as (cs & -> & G).
    unfold sg_replay. rewrite fold_left_app. fold (sg_replay K A kh before). exact (sg_replay_reads K A cs _ G).
Qed.
Print Assumptions C142_linux_sata.

Theorem C142_linux_nvme :
  (forall K h fd addr, addr < 2 ^ 64 ->
     exists cs, fst (nv_open K h fd addr) = h ++ cs /\ Forall nv_reads cs)
  /\ (forall K fd A kh identity p before ops, Forall inspects ops ->
        exists cs, nv_replay K fd A kh (fst (hrun (nv_drv K fd A kh identity) p before ops)) = nv_replay K fd A kh before ++ cs /\ Forall nv_reads cs).
Proof.
  split.
  - intros K h fd addr Ha. destruct (nv_open K h fd addr) as [h' r] eqn:E. cbn [fst].
    destruct (C71_open _ _ _ _ _ _ Ha E) as (c & -> & _ & R & V & _). exists [c]. split; [reflexivity|]. constructor; [|constructor].
    split; [exact R|]. rewrite V. cbn. auto.
  - intros K fd A kh identity p before ops Ho.
    destruct (hrun_gentle (nv_drv K fd A kh identity) ops p before Ho) as (cs & -> & G).
    unfold nv_replay. rewrite fold_left_app. fold (nv_replay K fd A kh before). exact (nv_replay_reads K fd A cs _ G).
Qed.
Print Assumptions C142_linux_nvme.

(** ---- C143: Windows ---- *)
(** Every DeviceIoControl of opening a device, whatever the outcome (an error and a crash included), and of an inspecting program. *)
Theorem C143_windows : forall S A, addr_ok A ->
  (forall h path, exists es, fst (win_open_by_path S A h path) = h ++ es /\ forall c, In (WIo c) es -> win_reads c)
  /\ (forall d h0 p before ops, Forall inspects ops ->
        exists es, win_replay S A d h0 (fst (hrun (win_drv S A d h0) p before ops)) = win_replay S A d h0 before ++ es
        /\ forall c, In (WIo c) es -> win_reads c).
Proof.
  intros S A HA.
  assert (X : forall h h', wadds h h' -> exists es, h' = h ++ es /\ forall c, In (WIo c) es -> win_reads c).
  { intros h h' (es & -> & F). exists es. split; [reflexivity|]. rewrite Forall_forall in F. intros c I. exact (F (WIo c) I). }
  split.
  - intros h path. apply X, open_path_adds, HA.
  - intros d h0 p before ops Ho. destruct (hrun_gentle (win_drv S A d h0) ops p before Ho) as (cs & -> & G).
    apply X. unfold win_replay. rewrite fold_left_app. fold (win_replay S A d h0 before). fold (win_replay S A d (win_replay S A d h0 before) cs).
    now apply replay_adds.
Qed.
Print Assumptions C143_windows.

(** EnumDrives, whatever the outcome. *)
Definition xquiet (e : xev) : Prop := match e with XSys (WIo c) => win_reads c | _ => True end.
Definition xadds (h h' : xhist) : Prop := exists es, h' = h ++ es /\ Forall xquiet es.
Lemma xadds_refl h : xadds h h.
Proof. exists []. now rewrite app_nil_r. Qed.
Lemma xadds_trans h1 h2 h3 : xadds h1 h2 -> xadds h2 h3 -> xadds h1 h3.
Proof. intros (a & -> & A) (b & -> & B). exists (a ++ b). rewrite app_assoc. split; [reflexivity|]. apply Forall_app. auto. Qed.
Lemma xadds_one h e : xquiet e -> xadds h (h ++ [e]).
Proof. intros H. exists [e]. auto. Qed.
Lemma detail_adds X h d i b : xadds h (fst (get_detail X h d i b)).
Proof. unfold get_detail. cbv zeta. destruct (x_detail X _) as [e [o s]]. cbn [fst]. now apply xadds_one. Qed.
Lemma path_adds X h d i b : xadds h (fst (device_path X h d i b)).
Proof.
  unfold device_path. pose proof (detail_adds X h d i b) as P. destruct (get_detail X h d i b) as [h1 [e1 [b1 s1]]]. cbn [fst] in P. cbv zeta.
  destruct (e1 =? 122).
  - destruct (round_1024 s1 =? 0); [exact P|]. pose proof (detail_adds X h1 d i (zeros (N.to_nat (round_1024 s1)))) as Q.
    destruct (get_detail X h1 d i (zeros (N.to_nat (round_1024 s1)))) as [h2 [e2 [b2 s2]]]. cbn [fst] in Q.
    destruct (e2 =? 0); exact (xadds_trans _ _ _ P Q).
  - destruct (e1 =? 0); exact P.
Qed.
Definition xaddr_ok (X : xsys) : Prop := forall h, x_data X h < 2 ^ 64 /\ x_bounce X h < 2 ^ 64.
Lemma x_open_adds X h p : xaddr_ok X -> xadds h (fst (x_open_by_path X h p)).
Proof.
  intros HA. unfold x_open_by_path.
  assert (HA' : addr_ok (waddr_at X h)) by (intros k; apply HA).
  destruct (open_path_adds (wsys_at X h) (waddr_at X h) [] p HA') as (es & E & F).
  destruct (win_open_by_path _ _ [] p) as [w r]. cbn [fst app] in *. subst w. exists (map XSys es). split; [reflexivity|].
  apply Forall_map. eapply Forall_impl; [|exact F]. intros [c|q|q] Hq; exact Hq.
Qed.
Lemma enum_devices_adds X fuel : forall h d i b xs, xaddr_ok X -> xadds h (fst (enum_devices X fuel h d i b xs)).
Proof.
  induction fuel as [|f IH]; intros h d i b xs HA; cbn [enum_devices]; [apply xadds_refl|]. cbv zeta.
  pose proof (xadds_one h (XDevInfo d i) I) as O1. destruct (negb _); [exact O1|].
  pose proof (xadds_trans _ _ _ O1 (xadds_one (h ++ [XDevInfo d i]) (XInterface d (N.of_nat i mod 2 ^ 32)) I)) as O2.
  set (h2 := (h ++ [XDevInfo d i]) ++ [XInterface d (N.of_nat i mod 2 ^ 32)]) in *. clearbody h2.
  destruct (x_iface X h2 =? 259); [exact (xadds_trans _ _ _ O2 (IH h2 d (S i) b xs HA))|]. destruct (negb _); [exact O2|].
  pose proof (path_adds X h2 d (N.of_nat i mod 2 ^ 32) b) as P. destruct (device_path X h2 d (N.of_nat i mod 2 ^ 32) b) as [h3 [b1 [[p|]|e| |]]]; cbn [fst] in P;
    pose proof (xadds_trans _ _ _ O2 P) as W; try exact W.
  - pose proof (x_open_adds X h3 p HA) as Q. destruct (x_open_by_path X h3 p) as [h4 [x|e| |]]; cbn [fst] in Q; pose proof (xadds_trans _ _ _ W Q) as W2; try exact W2.
    + exact (xadds_trans _ _ _ W2 (IH h4 d (S i) b1 (xs ++ [x]) HA)).
    + exact (xadds_trans _ _ _ W2 (IH h4 d (S i) b1 xs HA)).
  - exact (xadds_trans _ _ _ W (IH h3 d (S i) b1 xs HA)).
Qed.
Lemma close_adds xs : forall h, xadds h (fold_left x_close xs h).
Proof.
  induction xs as [|x xs IH]; intros h; cbn [fold_left]; [apply xadds_refl|].
  apply (xadds_trans _ (x_close h x)); [|apply IH]. unfold x_close, win_close.
  destruct (f_drv x) as [[[d w] cs]|]; cbn [fst close_handle app map]; [now apply xadds_one|rewrite app_nil_r; apply xadds_refl].
Qed.
Theorem C143_enum_drives : forall X fuel h, (forall k, x_data X k < 2 ^ 64 /\ x_bounce X k < 2 ^ 64) ->
  exists es, fst (win_enum_drives X fuel h) = h ++ es /\ forall c, In (XSys (WIo c)) es -> win_reads c.
Proof.
  intros X fuel h HA.
  assert (E : xadds h (fst (win_enum_drives X fuel h))).
  { unfold win_enum_drives. cbv zeta. pose proof (xadds_one h XClassDevs I) as O. destruct (x_class X (h ++ [XClassDevs])) as [e|d]; [exact O|].
    pose proof (enum_devices_adds X fuel (h ++ [XClassDevs]) d 0 (zeros 1024) [] HA) as P.
    destruct (enum_devices X fuel (h ++ [XClassDevs]) d 0 (zeros 1024) []) as [h2 [xs r]]. cbn [fst] in P.
    pose proof (xadds_trans _ _ _ O P) as W. pose proof (xadds_trans _ _ _ W (xadds_trans _ _ _ (close_adds (rev xs) h2) (xadds_one _ (XDestroy d) I))) as Z.
    destruct r; try exact Z; exact W. }
  destruct E as (es & -> & F). exists es. split; [reflexivity|]. rewrite Forall_forall in F. intros c I. exact (F _ I).
Qed.
Print Assumptions C143_enum_drives.

(** Reading is not the same as harmless: a device both NVMe drivers refuse is sent an ATA PASS-THROUGH packet whose PROTOCOL field is 0,
    which SAT defines as a request to reset the device. *)
Theorem C143_no_reset_refuted : forall S A h path h' x d g cs, addr_ok A ->
  win_open_by_path S A h path = (h', Ok x) -> f_drv x = Some (d, g, cs) -> wd_kind d = KScsi \/ wd_kind d = KAta ->
  exists es c, h' = h ++ es /\ In (WIo c) es /\ asks_for_reset c.
Proof.
  intros S A h path h' x d g cs HA H Hx Hk.
  unfold win_open_by_path in H. destruct (existsb _ path); [discriminate H|]. unfold open_device in H. cbv zeta in H.
  set (h0 := h ++ [WOpen path]) in *. destruct (s_open S h0) as [e|hd]; [discriminate H|].
  destruct (win_open_by_handle S A h0 hd path) as [h2 [x'|e| |]] eqn:E; try discriminate H. injection H as -> ->.
  assert (T : exists es c, h' = h0 ++ es /\ In (WIo c) es /\ asks_for_reset c).
  2:{ destruct T as (es & c & -> & I & R). exists (WOpen path :: es), c. unfold h0. rewrite <- app_assoc. split; [reflexivity|]. split; [now right|exact R]. }
  clearbody h0. unfold win_open_by_handle in E.
  pose proof (basic_adds S h0 hd) as B. destruct (win_basic_info S h0 hd) as [h1 b]. cbn [fst] in B. destruct B as (b1 & -> & _).
  destruct b as [basic| | |]; try discriminate E. cbv zeta in E.
  destruct (win_probes S A (h0 ++ b1) hd (whandle0 path basic) win_drivers) as [h2 [[x1|]|e| |]] eqn:P; try discriminate E.
  2:{ destruct (win_storage_query S h2 hd) as [h3 [q|e| |]]; try discriminate E; injection E as _ <-; discriminate Hx. }
  injection E as -> ->.
  (* the probes *)
  assert (SC : forall k, exists es c, fst (win_scsi_open S k hd (ad_data A k) (ad_bounce A k)) = k ++ es /\ In (WIo c) es /\ asks_for_reset c).
  { intros k. unfold win_scsi_open. rewrite finish_fst. destruct (HA k) as [Ha Hb].
    destruct (win_task_file S k hd false false win_identify_tf (a_data (new_aligned 512)) (ad_data A k) (ad_bounce A k) 3) as [k' r] eqn:T.
    destruct (C88_scsi_task_file _ _ _ _ _ _ _ _ _ _ _ _ identify_wf Ha Hb T) as [_ Q].
    destruct Q as (e & got & cdb & _ & Y & D & _); [discriminate|]. destruct Y as (c1 & rest & p1 & mid & -> & _ & C1 & L1 & _ & R1 & _).
    exists (WIo c1 :: rest), c1. split; [reflexivity|]. split; [now left|]. split; [rewrite C1; cbn; auto|].
    rewrite firstn_all2 by (unfold blen in L1; lia). destruct R1 as (_ & -> & _). eexists. split; [exact D|reflexivity]. }
  assert (IN : forall k y z k' d', win_install S A k y z = (k', Ok d') -> exists es, k' = k ++ es /\ exists g cs, f_drv d' = Some (z, g, cs)).
  { intros k y z k' d' Q. pose proof (install_adds S A k y z HA) as W. rewrite Q in W. destruct W as (es & W & _). cbn [fst] in W. exists es. split; [exact W|].
    unfold win_install in Q. cbv zeta in Q. destruct (init _ _ _) as [calls [p' r]]. destruct r; try discriminate Q; injection Q as _ <-; cbn [f_drv]; eauto. }
  assert (PK : forall k kd k' d', win_probe S A k hd kd = (k', Ok d') -> wd_kind d' = kd).
  { intros k kd k' d' Q. unfold win_probe in Q. cbv zeta in Q. destruct kd.
    - destruct (nvmewin_open S k hd) as [k1 [[sh i]|e| |]]; try discriminate Q; injection Q as _ <-; reflexivity.
    - destruct (winnvme_open S k hd) as [k1 [i|e| |]]; try discriminate Q; injection Q as _ <-; reflexivity.
    - destruct (win_scsi_open S k hd _ _) as [k1 [i|e| |]]; try discriminate Q; injection Q as _ <-; reflexivity.
    - destruct (win_ata_open S k hd _ _) as [k1 [i|e| |]]; try discriminate Q; injection Q as _ <-; reflexivity. }
  assert (SP : forall k, exists es c, fst (win_probe S A k hd KScsi) = k ++ es /\ In (WIo c) es /\ asks_for_reset c).
  { intros k. destruct (SC k) as (es & c & E & I & R). exists es, c. unfold win_probe. cbv zeta.
    destruct (win_scsi_open S k hd _ _) as [k1 r]. cbn [fst] in *. auto. }
  pose proof (fun k kd => probe_adds S A k hd kd HA) as PA.
  generalize (whandle0 path basic) as x0, P. intros x0. clear P. intros P. unfold win_drivers in P. cbn [win_probes] in P.
  (* NvmeWinDriver *)
  pose proof (PA (h0 ++ b1) KNvmeWin) as W1. destruct (win_probe S A (h0 ++ b1) hd KNvmeWin) as [k1 r1] eqn:E1. destruct W1 as (e1 & W1 & _). cbn [fst] in W1.
  destruct r1 as [d1|x1| |]; try discriminate P.
  { destruct (win_install S A k1 x0 d1) as [k2 [y|y| |]] eqn:I1; try discriminate P. injection P as _ <-.
    destruct (IN _ _ _ _ _ I1) as (_ & _ & g' & cs' & Hd). rewrite Hd in Hx. injection Hx as -> _ _. apply PK in E1. rewrite E1 in Hk. destruct Hk; discriminate. }
  (* WindowsNvmeDriver *)
  pose proof (PA k1 KWinNvme) as W2. destruct (win_probe S A k1 hd KWinNvme) as [k2 r2] eqn:E2. destruct W2 as (e2 & W2 & _). cbn [fst] in W2.
  destruct r2 as [d2|x2| |]; try discriminate P.
  { destruct (win_install S A k2 x0 d2) as [k3 [y|y| |]] eqn:I2; try discriminate P. injection P as _ <-.
    destruct (IN _ _ _ _ _ I2) as (_ & _ & g' & cs' & Hd). rewrite Hd in Hx. injection Hx as -> _ _. apply PK in E2. rewrite E2 in Hk. destruct Hk; discriminate. }
  (* SCSI *)
  destruct (SP k2) as (e3 & c & W3 & I3 & R3). destruct (win_probe S A k2 hd KScsi) as [k3 r3] eqn:E3. cbn [fst] in W3.
  assert (Fin : forall es, h' = k3 ++ es -> exists es c, h' = h0 ++ es /\ In (WIo c) es /\ asks_for_reset c).
  { intros es ->. exists (b1 ++ e1 ++ e2 ++ e3 ++ es), c. rewrite W3, W2, W1, <- !app_assoc. split; [reflexivity|]. split; [|exact R3].
    do 3 (apply in_or_app; right). apply in_or_app. now left. }
  destruct r3 as [d3|x3| |]; try discriminate P.
  { destruct (win_install S A k3 x0 d3) as [k4 [y|y| |]] eqn:I4; try discriminate P. injection P as <- _.
    destruct (IN _ _ _ _ _ I4) as (es & -> & _). now apply (Fin es). }
  (* ATA *)
  pose proof (PA k3 KAta) as W4. destruct (win_probe S A k3 hd KAta) as [k4 r4] eqn:E4. destruct W4 as (e4 & W4 & _). cbn [fst] in W4.
  destruct r4 as [d4|x4| |]; try discriminate P.
  { destruct (win_install S A k4 x0 d4) as [k5 [y|y| |]] eqn:I5; try discriminate P. injection P as <- _.
    destruct (IN _ _ _ _ _ I5) as (es & -> & _). apply (Fin (e4 ++ es)). now rewrite W4, <- app_assoc. }
Qed.
Print Assumptions C143_no_reset_refuted.
