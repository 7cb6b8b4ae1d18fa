(** Lemmas for C164: every Windows driver call and every opening does a bounded amount of work. *)
From Verif Require Import Base M_Buffer M_Struc M_Layouts M_Ata M_TcgDevice M_DriveHandle M_Cdb M_SgDriver M_NvmeLinux M_Strings M_WinPass M_WinNvme M_WinInfo M_WinFactory M_WinEnum
  M_WinMachine Spec_WorkWin P_DriveHandle P_AloneWin P_AloneWin2.
Local Open Scope nat_scope.

Definition wreqs (w : whist) : nat := List.length (filter (fun e => match e with WIo _ => true | _ => false end) w).
Lemma wreqs_app a b : wreqs (a ++ b) = wreqs a + wreqs b.
Proof. unfold wreqs. now rewrite filter_app, app_length. Qed.
Lemma wreqs_le a : wreqs a <= List.length a.
Proof. unfold wreqs. induction a as [|x a IH]; [auto|]. cbn. destruct x; cbn; lia. Qed.
(** From [w] to [w'] at most [c] requests and [n] actions. *)
Definition wgoes (w w' : whist) (c n : nat) : Prop := exists es, w' = w ++ es /\ wreqs es <= c /\ List.length es <= n.
Lemma wgoes_refl w : wgoes w w 0 0.
Proof. exists []. rewrite app_nil_r. cbn. auto. Qed.
Lemma wgoes_trans a b c m1 n1 m2 n2 : wgoes a b m1 n1 -> wgoes b c m2 n2 -> wgoes a c (m1 + m2) (n1 + n2).
Proof. intros (x & -> & X1 & X2) (y & -> & Y1 & Y2). exists (x ++ y). rewrite app_assoc, wreqs_app, app_length. split; [reflexivity|]. lia. Qed.
Lemma wgoes_le a b m n m' n' : wgoes a b m n -> m <= m' -> n <= n' -> wgoes a b m' n'.
Proof. intros (x & -> & X1 & X2) L1 L2. exists x. split; [reflexivity|]. lia. Qed.
Lemma wgoes_io S h c : wgoes h (fst (win_io S h c)) 1 1.
Proof. exists [WIo c]. cbn. auto. Qed.
Lemma wgoes_open S h p : wgoes h (fst (open_device S h p)) 0 1.
Proof. exists [WOpen p]. cbn. auto. Qed.
Lemma wgoes_close h hd : wgoes h (close_handle h hd) 0 1.
Proof. exists [WClose hd]. cbn. auto. Qed.
Lemma wgoes_query S h hd code inb m : wgoes h (fst (win_query S h hd code inb m)) 1 1.
Proof. eexists [WIo _]. cbn. auto. Qed.
Lemma wgoes_same S h hd code b : wgoes h (fst (win_same S h hd code b)) 1 1.
Proof. eexists [WIo _]. cbn. auto. Qed.

(** ---- driver calls ---- *)
Lemma second_goes S hd b hdr n back rw h d p : wgoes h (fst (win_second S hd b hdr n back rw h d p)) 1 1.
Proof. unfold win_second. cbv zeta. match goal with |- context [win_io S h ?c] => pose proof (wgoes_io S h c) as L; destruct (win_io S h c) as [h1 [[e|] [o m]]] end; exact L. Qed.
Lemma tries_goes S h hd direct buffered hdr n back rw data addr baddr : wgoes h (fst (win_tries S h hd direct buffered hdr n back rw data addr baddr)) 2 2.
Proof.
  rewrite win_tries_eq. cbv zeta. destruct data as [|x d]; [eapply wgoes_le; [apply wgoes_refl|lia|lia]|].
  destruct (N.eqb _ 0); unfold win_first;
    match goal with |- context [win_io S h ?c] => pose proof (wgoes_io S h c) as L; destruct (win_io S h c) as [h1 [[e|] [p m1]]] end; cbn [fst] in L.
  - exact (wgoes_trans _ _ _ _ _ _ _ L (second_goes _ _ _ _ _ _ _ _ _ _)).
  - cbn [fst]. eapply wgoes_le; [exact L|lia|lia].
  - exact (wgoes_trans _ _ _ _ _ _ _ L (second_goes _ _ _ _ _ _ _ _ _ _)).
  - cbn [fst]. eapply wgoes_le; [exact L|lia|lia].
Qed.
Lemma ata_goes S h hd rw dma t data addr baddr secs : wgoes h (fst (win_ata S h hd rw dma t data addr baddr secs)) 2 2.
Proof. rewrite win_ata_eq. cbv zeta. cbn [fst]. apply tries_goes. Qed.
Lemma scsi_goes S h hd rw cdb data addr baddr secs : wgoes h (fst (win_scsi S h hd rw cdb data addr baddr secs)) 2 2.
Proof. rewrite win_scsi_eq. cbv zeta. cbn [fst]. apply tries_goes. Qed.
Lemma miniport_goes S h hd c ext : wgoes h (fst (miniport_admin S h hd c ext)) 1 1.
Proof.
  unfold miniport_admin. cbv zeta. destruct (N.ltb _ _); [eapply wgoes_le; [apply wgoes_refl|lia|lia]|].
  match goal with |- context [win_same S h hd ?a ?b] => pose proof (wgoes_same S h hd a b) as L; destruct (win_same S h hd a b) as [h1 [[e|] o]] end; exact L.
Qed.
Lemma wlog_goes S h hd nsid logId rae size : wgoes h (fst (winnvme_log_page S h hd nsid logId rae size)) 1 1.
Proof.
  unfold winnvme_log_page. destruct (Z.leb _ _); [eapply wgoes_le; [apply wgoes_refl|lia|lia]|]. destruct (Z.ltb _ _); [eapply wgoes_le; [apply wgoes_refl|lia|lia]|].
  match goal with |- context [win_same S h hd ?a ?b] => pose proof (wgoes_same S h hd a b) as L; destruct (win_same S h hd a b) as [h1 [[e|] o]] end; [exact L|].
  cbv zeta. destruct (_ || _)%bool; exact L.
Qed.
Definition wcost (k : wkind) (c : dcall) : nat :=
  match c, k with
  | CSec _ _ _ _ _ _, (KWinNvme | KScsi) => 2
  | CTask _ _ _ _ _, (KScsi | KAta) => 2
  | CAdmin _, KNvmeWin => 1
  | CLogPage _ _ _ _, KWinNvme => 1
  | CClose, _ => 1
  | _, _ => 0
  end.
Fixpoint wtotal (k : wkind) (cs : dhist) : nat := match cs with [] => 0 | c :: r => wcost k c + wtotal k r end.
Lemma wtotal_app k a b : wtotal k (a ++ b) = wtotal k a + wtotal k b.
Proof. induction a as [|c a IH]; cbn [app wtotal]; [reflexivity|]. rewrite IH. lia. Qed.
Lemma one_goes S A d h c : wgoes h (win_one S A d h c) (wcost (wd_kind d) c) (wcost (wd_kind d) c).
Proof.
  assert (N0 : forall k, wgoes h h k k) by (intros k; eapply wgoes_le; [apply wgoes_refl|lia|lia]).
  assert (C0 : wgoes h (close_handle h (wd_handle d)) 1 1) by (eapply wgoes_le; [apply wgoes_close|lia|lia]).
  unfold win_one. destruct c; cbn [win_exec]; destruct (wd_kind d); cbn [wcost fst]; try apply N0; try exact C0; try apply scsi_goes; try apply ata_goes.
  - match goal with |- context [miniport_admin S h ?a ?b []] => pose proof (miniport_goes S h a b []) as L; destruct (miniport_admin S h a b []) as [h1 [e [c' x]]] end. exact L.
  - match goal with |- context [winnvme_log_page S h ?a ?b ?c ?d ?e] => pose proof (wlog_goes S h a b c d e) as L; destruct (winnvme_log_page S h a b c d e) as [h1 r] end. exact L.
Qed.
Lemma replay_goes S A d cs : forall h, wgoes h (win_replay S A d h cs) (wtotal (wd_kind d) cs) (wtotal (wd_kind d) cs).
Proof.
  induction cs as [|c cs IH]; intros h; [apply wgoes_refl|]. change (win_replay S A d h (c :: cs)) with (win_replay S A d (win_one S A d h c) cs).
  exact (wgoes_trans _ _ _ _ _ _ _ (one_goes S A d h c) (IH _)).
Qed.

(** ---- calls on a drive handle ---- *)
Lemma wsec_total V p h k rw dma pr c b t : p_dh p = Some (win_dtype k) ->
  wtotal k (fst (security_command V p h rw dma pr c b t)) <= wtotal k h + wcall_limit k (HSec rw dma pr c b t).
Proof.
  intros H. unfold security_command. rewrite H. cbv zeta. destruct (v_io V _) as [[e|] n1].
  - destruct k; cbn [win_dtype is_ata is_nvme]; cbv zeta; destruct (v_io V _) as [e2 n2]; cbn [fst]; rewrite !wtotal_app; cbn [wtotal wcost wcall_limit]; lia.
  - cbn [fst]. rewrite wtotal_app. destruct k; cbn [wtotal wcost wcall_limit]; lia.
Qed.
Lemma wdisc_total V p h k : p_dh p = Some (win_dtype k) -> wtotal k (fst (tcg_discovery0 V p h)) <= wtotal k h + wcall_limit k HDiscovery.
Proof.
  intros H. pose proof (wsec_total V p h k false false 0x01 0x0001 (zeros 2048) 3 H) as L. unfold tcg_discovery0.
  destruct (security_command V p h false false 0x01 0x0001 (zeros 2048) 3) as [h1 [e buf]]. cbn [fst] in L.
  assert (Q : wtotal k h1 <= wtotal k h + wcall_limit k HDiscovery) by (destruct k; exact L). clear L.
  destruct e as [x|]; [exact Q|]. cbv zeta. destruct (struc_unpack _ _ _) as [hd| | |]; try exact Q.
  destruct (N.ltb _ _); [exact Q|]. destruct (discovery_loop _ _ _ _ _ _ _) as [t r]. exact Q.
Qed.
Lemma wtail_total V p h k : p_dh p = Some (win_dtype k) -> wtotal k (fst (init_tail V p h)) <= wtotal k h + wcall_limit k HDiscovery.
Proof.
  intros H. unfold init_tail. cbv zeta. match goal with |- context [tcg_discovery0 V ?q h] => pose proof (wdisc_total V q h k H) as L; destruct (tcg_discovery0 V q h) as [h1 [p2 r]] end. exact L.
Qed.
Lemma winit_total V p h k : p_dh p = Some (win_dtype k) -> wtotal k (fst (init V p h)) <= wtotal k h + wcall_limit k HInit.
Proof.
  intros H. unfold init. rewrite H.
  assert (B : wtotal k (h ++ [CIdentity]) = wtotal k h) by (rewrite wtotal_app; destruct k; cbn; lia).
  assert (T : forall i hh, wtotal k hh <= wtotal k h -> wtotal k (fst (init_tail V (with_info p i) hh)) <= wtotal k h + wcall_limit k HInit).
  { intros i hh L. pose proof (wtail_total V (with_info p i) hh k H) as Q. destruct k; cbn [wcall_limit] in *; lia. }
  destruct k; cbn [win_dtype is_ata is_nvme]; cbv zeta;
    (destruct (init_nvme _ _) as [i2 r2] || destruct (init_ata _ _) as [i2 r2]);
    (destruct r2; try (cbn [fst]; rewrite B; lia); apply T; rewrite B; lia).
Qed.
Lemma whstep_total V p k o : p_dh p = Some (win_dtype k) -> o <> HClose -> wtotal k (fst (hstep V p [] o)) <= wcall_limit k o.
Proof.
  intros H NC. destruct o; cbn [hstep]; try congruence.
  - pose proof (winit_total V p [] k H) as L. destruct (init V p []) as [h1 [p1 r]]. exact L.
  - unfold get_driving_type. rewrite H. destruct k; cbn; lia.
  - unfold get_driver_name. rewrite H. destruct k; cbn; lia.
  - pose proof (wdisc_total V p [] k H) as L. destruct (tcg_discovery0 V p []) as [h1 [p1 r]]. exact L.
  - pose proof (wsec_total V p [] k rw dma protocol comId buffer timeoutSecs H) as L. destruct (security_command _ _ _ _ _ _ _ _ _) as [h1 [e b]]. exact L.
  - unfold ata_do_task_file_cmd. rewrite H. destruct k; cbn [win_dtype is_ata]; try (cbn; lia); destruct (v_io V _) as [e n]; cbn; lia.
  - unfold nvme_get_log_page. rewrite H. destruct k; cbn [win_dtype is_nvme]; try (cbn; lia); cbv zeta; destruct (v_log V _) as [b e]; cbn; lia.
Qed.

(** ---- opening ---- *)
Lemma read_goes S h hd code inb : wgoes h (fst (read_ioctl S h hd code inb)) 2 2.
Proof.
  unfold read_ioctl. match goal with |- context [win_query S h hd code inb ?n] => pose proof (wgoes_query S h hd code inb n) as L; destruct (win_query S h hd code inb n) as [h1 [a1 b1]] end.
  cbn [fst] in L. cbv zeta. assert (G : wgoes h h1 2 2) by (eapply wgoes_le; [exact L|lia|lia]).
  destruct (N.eqb (wa_err a1) _); [|destruct (N.eqb (wa_err a1) 0); exact G]. destruct (N.eqb (wa_ret a1) 0); [exact G|].
  pose proof (wgoes_query S h1 hd code inb (wa_ret a1)) as L2. destruct (win_query S h1 hd code inb (wa_ret a1)) as [h2 [a2 b2]]. cbn [fst] in L2.
  pose proof (wgoes_trans _ _ _ _ _ _ _ L L2) as G2. destruct (N.eqb (wa_err a2) 0); exact G2.
Qed.
Lemma basic_goes S h hd : wgoes h (fst (win_basic_info S h hd)) 4 4.
Proof.
  unfold win_basic_info.
  match goal with |- context [win_query S h hd ?c ?i ?n] => pose proof (wgoes_query S h hd c i n) as L1; destruct (win_query S h hd c i n) as [h1 [a1 b1]] end. cbn [fst] in L1. cbv zeta.
  match goal with |- context [win_query S h1 hd ?c ?i ?n] => pose proof (wgoes_query S h1 hd c i n) as L2; destruct (win_query S h1 hd c i n) as [h2 [a2 b2]] end. cbn [fst] in L2.
  match goal with |- context [read_ioctl S h2 hd ?c ?i] => pose proof (read_goes S h2 hd c i) as L3; destruct (read_ioctl S h2 hd c i) as [h3 r] end. cbn [fst] in L3.
  pose proof (wgoes_trans _ _ _ _ _ _ _ L1 (wgoes_trans _ _ _ _ _ _ _ L2 L3)) as G.
  destruct r as [[buf n]|e| |]; try exact G. destruct (layout_info _ _) as [[[[a b] c] d]| | |]; exact G.
Qed.
Lemma storage_goes S h hd : wgoes h (fst (win_storage_query S h hd)) 2 2.
Proof.
  unfold win_storage_query. match goal with |- context [read_ioctl S h hd ?c ?i] => pose proof (read_goes S h hd c i) as G; destruct (read_ioctl S h hd c i) as [h1 r] end. cbn [fst] in G.
  destruct r as [[buf n]|e| |]; try exact G. destruct (N.eqb n 0); [exact G|]. destruct (Nat.ltb _ _); [exact G|]. cbv zeta.
  destruct (read_ascii _ _); try exact G. destruct (read_ascii _ _); try exact G. destruct (read_ascii _ _); try exact G. destruct (read_ascii _ _); exact G.
Qed.
Lemma nvmewin_goes S h hd : wgoes h (fst (nvmewin_open S h hd)) 2 4.
Proof.
  unfold nvmewin_open, get_scsi_path. match goal with |- context [win_same S h hd ?a ?b] => pose proof (wgoes_same S h hd a b) as L1; destruct (win_same S h hd a b) as [h1 [[e|] o]] end; cbn [fst] in L1.
  - eapply wgoes_le; [exact L1|lia|lia].
  - match goal with |- context [open_device S h1 ?p] => pose proof (wgoes_open S h1 p) as L2; destruct (open_device S h1 p) as [h2 [e|sh]] end; cbn [fst] in L2; pose proof (wgoes_trans _ _ _ _ _ _ _ L1 L2) as L.
    + eapply wgoes_le; [exact L|lia|lia].
    + unfold miniport_identity. match goal with |- context [win_same S h2 sh ?a ?b] => pose proof (wgoes_same S h2 sh a b) as L3; destruct (win_same S h2 sh a b) as [h3 [[e|] out]] end; cbn [fst] in L3;
        pose proof (wgoes_trans _ _ _ _ _ _ _ L L3) as L4.
      * exact (wgoes_trans _ _ _ _ _ _ _ L4 (wgoes_close h3 sh)).
      * destruct (negb _); cbn [fst]; [exact (wgoes_trans _ _ _ _ _ _ _ L4 (wgoes_close h3 sh))|]. eapply wgoes_le; [exact L4|lia|lia].
Qed.
Lemma winnvme_goes S h hd : wgoes h (fst (winnvme_open S h hd)) 1 1.
Proof.
  unfold winnvme_open, winnvme_identity. match goal with |- context [win_same S h hd ?a ?b] => pose proof (wgoes_same S h hd a b) as L1; destruct (win_same S h hd a b) as [h1 [[e|] o]] end; cbn [fst] in L1; [exact L1|].
  destruct (negb _); exact L1.
Qed.
Definition wprobe_reqs (k : wkind) : nat := match k with KWinNvme => 1 | _ => 2 end.
Definition wprobe_acts (k : wkind) : nat := match k with KNvmeWin => 4 | KWinNvme => 1 | _ => 2 end.
Lemma probe_goes S A h hd k : wgoes h (fst (win_probe S A h hd k)) (wprobe_reqs k) (wprobe_acts k) /\ forall d, snd (win_probe S A h hd k) = Ok d -> wd_kind d = k.
Proof.
  unfold win_probe. cbv zeta. destruct k; cbn [wprobe_reqs wprobe_acts].
  - pose proof (nvmewin_goes S h hd) as L. destruct (nvmewin_open S h hd) as [h1 x]. cbn [fst snd] in *. split; [exact L|]. intros d E. destruct x as [[sh i]| | |]; try discriminate E. now injection E as <-.
  - pose proof (winnvme_goes S h hd) as L. destruct (winnvme_open S h hd) as [h1 x]. cbn [fst snd] in *. split; [exact L|]. intros d E. destruct x; try discriminate E. now injection E as <-.
  - unfold win_scsi_open, win_task_file. rewrite finish_eq.
    match goal with |- context [win_scsi S h hd ?r ?c ?d ?a ?b ?s] => pose proof (scsi_goes S h hd r c d a b s) as L; destruct (win_scsi S h hd r c d a b s) as [h1 x] end.
    cbn [fst snd] in *. split; [exact L|]. intros d E. destruct (snd (finish_open _)); try discriminate E. now injection E as <-.
  - unfold win_ata_open. rewrite finish_eq.
    match goal with |- context [win_ata S h hd ?r ?c ?d ?a ?b ?s ?z] => pose proof (ata_goes S h hd r c d a b s z) as L; destruct (win_ata S h hd r c d a b s z) as [h1 x] end.
    cbn [fst snd] in *. split; [exact L|]. intros d E. destruct (snd (finish_open _)); try discriminate E. now injection E as <-.
Qed.
Lemma install_goes S A h x d : wgoes h (fst (win_install S A h x d)) (wcall_limit (wd_kind d) HInit) (wcall_limit (wd_kind d) HInit).
Proof.
  rewrite install_fst. match goal with |- context [init ?V ?p ?c] => pose proof (winit_total V p c (wd_kind d) eq_refl) as L; destruct (init V p c) as [cs q] end. cbn [fst] in *.
  pose proof (replay_goes S A d cs h) as G. assert (Z0 : wtotal (wd_kind d) [CType; CName] = 0) by (destruct (wd_kind d); reflexivity).
  eapply wgoes_le; [exact G|lia|lia].
Qed.
(** A handle's driver kind is the one its drive handle knows. *)
Definition wkinded (x : mhandle) : Prop := match mh_dev x with Some d => p_dh (mh_dh x) = Some (win_dtype (wd_kind d)) | None => p_dh (mh_dh x) = None end.
Definition fkinded (x : whandle) : Prop := match f_drv x with Some (d, _, _) => p_dh (f_dh x) = Some (win_dtype (wd_kind d)) | None => p_dh (f_dh x) = None end.
Lemma fkinded_of path x : fkinded x -> wkinded (mhandle_of path x).
Proof. unfold fkinded, wkinded, mhandle_of. cbn. destruct (f_drv x) as [[[d w] c]|]; auto. Qed.
(** worst case over the drivers still to be tried, [last] being what follows when none accepts *)
Fixpoint wprobes_reqs (ks : list wkind) (last : nat) : nat :=
  match ks with [] => last | k :: ks' => wprobe_reqs k + Nat.max (wcall_limit k HInit) (wprobes_reqs ks' last) end.
Fixpoint wprobes_acts (ks : list wkind) (last : nat) : nat :=
  match ks with [] => last | k :: ks' => wprobe_acts k + Nat.max (wcall_limit k HInit) (wprobes_acts ks' last) end.
