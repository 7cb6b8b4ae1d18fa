(** Lemmas for C153, C154: what each call of a program does to the machine's handles. *)
From Verif Require Import Base M_Buffer M_Struc M_Layouts M_Ata M_TcgDevice M_DriveHandle M_Cdb M_SgDriver M_NvmeLinux M_Strings M_WinPass M_WinNvme M_WinInfo
  M_WinFactory M_WinEnum M_WinMachine Spec_Inspect Spec_InspectWin P_DriveHandle P_WinNvme Prop_WinNvme P_Inspect P_InspectWin Spec_WinMachine.
From Coq Require Import Permutation.

(** ---- no call but Close closes ---- *)
Definition no_close (c : dcall) : Prop := c <> CClose.
Lemma security_no_close V p h rw dma pr c b s : adds no_close h (fst (security_command V p h rw dma pr c b s)).
Proof.
  unfold security_command. destruct (p_dh p) as [ty|]; [|apply adds_refl]. cbv zeta.
  destruct (v_io V (h ++ [CSec rw dma pr c b s])) as [e1 n1].
  assert (G1 : adds no_close h (h ++ [CSec rw dma pr c b s])) by (apply adds_one; discriminate).
  destruct e1 as [e1|]; [|exact G1]. destruct (is_ata ty); [|destruct (is_nvme ty); [|exact G1]];
    match goal with |- context [v_io V ?hh] => destruct (v_io V hh) as [e2 n2] end; apply (adds_trans _ _ _ _ G1), adds_one; discriminate.
Qed.
Lemma discovery_no_close V p h : adds no_close h (fst (tcg_discovery0 V p h)).
Proof.
  unfold tcg_discovery0. pose proof (security_no_close V p h false false 1 1 (zeros 2048) 3) as G.
  destruct (security_command V p h false false 1 1 (zeros 2048) 3) as [h1 [e buf]]. cbn [fst] in G.
  destruct e; [exact G|]. destruct (struc_unpack _ _ _); try exact G. cbv zeta.
  destruct (_ <? _); [exact G|]. destruct (discovery_loop _ _ _ _ _ _ _). exact G.
Qed.
Lemma init_no_close V p h : adds no_close h (fst (init V p h)).
Proof.
  unfold init. set (ty := match p_dh p with Some t => t | None => _ end). clearbody ty.
  assert (I : forall hh, adds no_close hh (hh ++ [CIdentity])) by (intros; apply adds_one; discriminate).
  assert (T : forall q hh, adds no_close hh (fst (init_tail V q hh))).
  { intros q hh. unfold init_tail. cbv zeta. pose proof (discovery_no_close V (with_info q (set_tcg (p_info q) true (with_map (i_tcg (p_info q))))) hh) as G.
    destruct (tcg_discovery0 _ _ hh) as [h3 [p3 r3]]. exact G. }
  destruct (if is_ata ty then _ else _) as [h1 [i1 r1]] eqn:E1.
  assert (G1 : adds no_close h h1).
  { destruct (is_ata ty); [injection E1 as <- _; apply I|injection E1 as <- _ _; apply adds_refl]. }
  destruct r1; try exact G1.
  destruct (if is_nvme ty then _ else _) as [h2 [i2 r2]] eqn:E2.
  assert (G2 : adds no_close h h2).
  { apply (adds_trans _ _ _ _ G1). destruct (is_nvme ty); [injection E2 as <- _; apply I|injection E2 as <- _ _; apply adds_refl]. }
  destruct r2; try exact G2. exact (adds_trans _ _ _ _ G2 (T _ _)).
Qed.
Lemma hstep_no_close V p h o : o <> HClose -> adds no_close h (fst (hstep V p h o)).
Proof.
  intros Ho. assert (One : forall c, no_close c -> adds no_close h (h ++ [c])) by (intros; now apply adds_one).
  destruct o; cbn [hstep]; try congruence.
  - pose proof (init_no_close V p h) as G. destruct (init V p h) as [h1 [p1 r]]. exact G.
  - unfold get_driving_type. destruct (p_dh p); [apply One; discriminate|apply adds_refl].
  - unfold get_driver_name. destruct (p_dh p); [apply One; discriminate|apply adds_refl].
  - pose proof (discovery_no_close V p h) as G. destruct (tcg_discovery0 V p h) as [h1 [p1 r]]. exact G.
  - match goal with |- context [security_command ?a ?b ?c ?d ?e ?f ?g ?i ?j] => pose proof (security_no_close a b c d e f g i j) as G; destruct (security_command a b c d e f g i j) as [h1 [e1 b1]] end. exact G.
  - unfold ata_do_task_file_cmd. destruct (p_dh p) as [ty|]; [|apply adds_refl]. destruct (is_ata ty); [|apply adds_refl]. cbv zeta.
    match goal with |- context [v_io V ?hh] => destruct (v_io V hh) as [e2 n2] end. apply One. discriminate.
  - unfold nvme_get_log_page. destruct (p_dh p) as [ty|]; [|apply adds_refl]. destruct (is_nvme ty); [|apply adds_refl]. cbv zeta.
    match goal with |- context [v_log V ?hh] => destruct (v_log V hh) as [e2 n2] end. apply One. discriminate.
Qed.

(** ---- requests on given handles ---- *)
Definition io_on (hds : list N) (e : wev) : Prop := match e with WIo c => In (wc_handle c) hds | _ => False end.
Definition ios (hds : list N) (w w' : whist) : Prop := exists es, w' = w ++ es /\ Forall (io_on hds) es.
Lemma ios_refl hds w : ios hds w w.
Proof. exists []. now rewrite app_nil_r. Qed.
Lemma ios_one hds w c : In (wc_handle c) hds -> ios hds w (w ++ [WIo c]).
Proof. intros H. exists [WIo c]. split; [reflexivity|]. constructor; [exact H|constructor]. Qed.
Lemma ios_trans hds w1 w2 w3 : ios hds w1 w2 -> ios hds w2 w3 -> ios hds w1 w3.
Proof. intros (a & -> & A) (b & -> & B). exists (a ++ b). rewrite app_assoc. split; [reflexivity|]. apply Forall_app. auto. Qed.
Lemma ios_incl a b w w' : incl a b -> ios a w w' -> ios b w w'.
Proof. intros H (es & -> & F). exists es. split; [reflexivity|]. eapply Forall_impl; [|exact F]. intros [c|p|q]; cbn; auto. Qed.
Lemma same_ios S w hd code b : ios [hd] w (fst (win_same S w hd code b)).
Proof. unfold win_same, win_io. cbv zeta. cbn [fst]. apply ios_one. now left. Qed.
Lemma query_ios S w hd code inb n : ios [hd] w (fst (win_query S w hd code inb n)).
Proof. unfold win_query. cbv zeta. cbn [fst]. apply ios_one. now left. Qed.
Lemma read_ioctl_ios S w hd code inb : ios [hd] w (fst (read_ioctl S w hd code inb)).
Proof.
  unfold read_ioctl. pose proof (query_ios S w hd code inb 4096) as X. destruct (win_query S w hd code inb 4096) as [h1 [a1 b1]].
  cbn [fst] in X. cbv zeta. destruct (wa_err a1 =? ERROR_INSUFFICIENT_BUFFER).
  - destruct (wa_ret a1 =? 0); [exact X|]. pose proof (query_ios S h1 hd code inb (wa_ret a1)) as Y.
    destruct (win_query S h1 hd code inb (wa_ret a1)) as [h2 [a2 b2]]. cbn [fst] in Y. apply (ios_trans _ _ _ _ X). destruct (wa_err a2 =? 0); exact Y.
  - destruct (wa_err a1 =? 0); exact X.
Qed.
Lemma basic_ios S w hd : ios [hd] w (fst (win_basic_info S w hd)).
Proof.
  unfold win_basic_info.
  pose proof (query_ios S w hd IOCTL_STORAGE_GET_DEVICE_NUMBER [] 12) as X. destruct (win_query S w hd _ [] 12) as [h1 [a1 b1]]. cbn [fst] in X.
  pose proof (query_ios S h1 hd IOCTL_DISK_GET_DRIVE_GEOMETRY_EX [] 32) as Y. destruct (win_query S h1 hd _ [] 32) as [h2 [a2 b2]]. cbn [fst] in Y.
  pose proof (read_ioctl_ios S h2 hd IOCTL_DISK_GET_DRIVE_LAYOUT_EX []) as Z. destruct (read_ioctl S h2 hd _ []) as [h3 r]. cbn [fst] in Z.
  pose proof (ios_trans _ _ _ _ X (ios_trans _ _ _ _ Y Z)) as W.
  destruct r as [[buf n]| | |]; try exact W. destruct (layout_info _ _) as [[[[? ?] ?] ?]| | |]; exact W.
Qed.
Lemma storage_ios S w hd : ios [hd] w (fst (win_storage_query S w hd)).
Proof.
  unfold win_storage_query. pose proof (read_ioctl_ios S w hd IOCTL_STORAGE_QUERY_PROPERTY (zeros 12)) as Z.
  destruct (read_ioctl S w hd _ (zeros 12)) as [h3 r]. cbn [fst] in Z. destruct r as [[buf n]| | |]; try exact Z.
  destruct (n =? 0); [exact Z|]. destruct (_ <? 36)%nat; [exact Z|]. cbv zeta.
  repeat match goal with |- context [match read_ascii ?a ?b with _ => _ end] => destruct (read_ascii a b); try exact Z end.
Qed.
Lemma io_ios S w c hd : wc_handle c = hd -> ios [hd] w (fst (win_io S w c)).
Proof. intros <-. unfold win_io. cbv zeta. cbn [fst]. apply ios_one. now left. Qed.
Lemma tries_ios S w hd direct buffered hdr n back rw data addr baddr : ios [hd] w (fst (win_tries S w hd direct buffered hdr n back rw data addr baddr)).
Proof.
  unfold win_tries. cbv zeta. destruct data as [|b0 data]; [apply ios_refl|]. set (dd := b0 :: data). clearbody dd.
  assert (Sec : forall w1 d1 p1, ios [hd] w w1 -> ios [hd] w
    (fst (let '(h2, (e2, (out, _))) := win_io S w1 {| wc_handle := hd; wc_code := buffered; wc_in := hdr (N.of_nat n) p1 ++ d1;
            wc_outlen := N.of_nat n + blen d1; wc_target := TNone; wc_mem := [] |} in
          match e2 with
          | Some e => (h2, Ok (Some e, (d1, hdr (N.of_nat n) p1)))
          | None => (h2, Ok (None, (if rw then d1 else fill d1 (skipn n out), if back then firstn n out else hdr (N.of_nat n) p1)))
          end))).
  { intros w1 d1 p1 H. match goal with |- context [win_io S w1 ?c] => pose proof (io_ios S w1 c hd eq_refl) as Y; destruct (win_io S w1 c) as [h2 [e2 [out m]]] end.
    cbn [fst] in Y. destruct e2; exact (ios_trans _ _ _ _ H Y). }
  destruct (is_aligned_pointer 512 addr) as [[|]|e| |]; try apply ios_refl.
  - match goal with |- context [win_io S w ?c] => pose proof (io_ios S w c hd eq_refl) as X; destruct (win_io S w c) as [h1 [e1 [p1 mem]]] end.
    cbn [fst] in X. destruct e1; [|exact X]. apply Sec, X.
  - match goal with |- context [win_io S w ?c] => pose proof (io_ios S w c hd eq_refl) as X; destruct (win_io S w c) as [h1 [e1 [p1 mem]]] end.
    cbn [fst] in X. destruct e1; [apply Sec, X|]. destruct rw; [exact X|].
    match goal with |- context [buf_read ?a ?b] => destruct (snd (buf_read a b)) end; exact X.
Qed.
Lemma ata_ios S w hd rw dma t data addr baddr secs : ios [hd] w (fst (win_ata S w hd rw dma t data addr baddr secs)).
Proof.
  unfold win_ata. cbv zeta. match goal with |- context [win_tries ?a ?b ?c ?d ?e ?f ?g ?i ?j ?k ?l ?m] => pose proof (tries_ios a b c d e f g i j k l m) as X; destruct (win_tries a b c d e f g i j k l m) as [h1 r] end.
  cbn [fst] in X. destruct r as [[[e|] [d p]]| | |]; try exact X. destruct (negb _); exact X.
Qed.
Lemma scsi_ios S w hd rw cdb data addr baddr secs : ios [hd] w (fst (win_scsi S w hd rw cdb data addr baddr secs)).
Proof.
  unfold win_scsi. cbv zeta. match goal with |- context [win_tries ?a ?b ?c ?d ?e ?f ?g ?i ?j ?k ?l ?m] => pose proof (tries_ios a b c d e f g i j k l m) as X; destruct (win_tries a b c d e f g i j k l m) as [h1 r] end.
  cbn [fst] in X. destruct r as [[[e|] [d p]]| | |]; exact X.
Qed.
Lemma miniport_ios S w hd c ext : ios [hd] w (fst (miniport_admin S w hd c ext)).
Proof.
  unfold miniport_admin. destruct (4096 <? c_data_len c); [apply ios_refl|]. cbv zeta.
  set (ref := if negb _ then ext else c_data c). clearbody ref. set (m := miniport_mem _ _ _ _ _ _ _ _ _). clearbody m.
  pose proof (same_ios S w hd IOCTL_SCSI_MINIPORT m) as X. destruct (win_same S w hd IOCTL_SCSI_MINIPORT m) as [h1 [e out]]. cbn [fst] in X. destruct e; exact X.
Qed.
Lemma log_ios S w hd nsid logId rae size : ios [hd] w (fst (winnvme_log_page S w hd nsid logId rae size)).
Proof.
  unfold winnvme_log_page. destruct (size <=? -48)%Z; [apply ios_refl|]. destruct (size <? 0)%Z; [apply ios_refl|].
  set (m := protocol_query _ _ _ _ ++ _). clearbody m. pose proof (same_ios S w hd IOCTL_STORAGE_QUERY_PROPERTY m) as X.
  destruct (win_same S w hd _ m) as [h1 [e out]]. cbn [fst] in X. destruct e; [exact X|]. cbv zeta. destruct (_ || _)%bool; exact X.
Qed.
(** The handles a driver handle sends requests on. *)
Definition dev_handles (d : wdh) : list N := match wd_kind d with KNvmeWin => [wd_handle d; wd_scsi d] | _ => [wd_handle d] end.
Lemma dev_handle_in d : In (wd_handle d) (dev_handles d).
Proof. unfold dev_handles. destruct (wd_kind d); now left. Qed.
Lemma step_ios S A d k c : no_close c -> ios (dev_handles d) k (replay_step S A d k c).
Proof.
  intros G. unfold replay_step, win_replay. cbn [fold_left].
  assert (R : ios (dev_handles d) k k) by apply ios_refl.
  assert (H1 : forall k', ios [wd_handle d] k k' -> ios (dev_handles d) k k').
  { intros k'. apply ios_incl. intros x [<-|[]]. apply dev_handle_in. }
  destruct c; unfold win_exec; try (destruct (wd_kind d); exact R); [| | | |congruence].
  - destruct (wd_kind d); try exact R; apply H1; apply scsi_ios.
  - destruct (wd_kind d); try exact R; apply H1; [apply scsi_ios|apply ata_ios].
  - destruct (wd_kind d) eqn:Ek; try exact R. pose proof (miniport_ios S k (wd_scsi d) c []) as X.
    destruct (miniport_admin S k (wd_scsi d) c []) as [h1 [e [c' x]]]. cbn [fst] in *. eapply ios_incl; [|exact X].
    intros x0 [<-|[]]. unfold dev_handles. rewrite Ek. right. now left.
  - destruct (wd_kind d); try exact R. pose proof (log_ios S k (wd_handle d) nsid logId rae size) as X.
    destruct (winnvme_log_page _ _ _ _ _ _ _) as [h1 q]. exact (H1 _ X).
Qed.
Lemma replay_ios S A d cs : forall w, Forall no_close cs -> ios (dev_handles d) w (win_replay S A d w cs).
Proof.
  induction cs as [|c cs IH]; intros w H; [apply ios_refl|]. inversion H; subst.
  change (win_replay S A d w (c :: cs)) with (win_replay S A d (replay_step S A d w c) cs).
  apply (ios_trans _ _ (replay_step S A d w c)); [now apply step_ios|now apply IH].
Qed.
